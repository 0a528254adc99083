(** Proofs of C81: the codes restored from foreign hints, with a preroll. *)
From Verif Require Import Base M_bit M_lib M_all_refs M_technique M_trace Spec Clients Clients_restore Clients_hints
  L_bits L_ring L_search L_P_search L_tech L_P_tech L_trace L_strace L_P_trace L_restore L_P_hints.
From Coq Require Import ZArith ZifyBool ZifyNat ZifyN.
Ltac Zify.zify_post_hook ::= Z.div_mod_to_equations.
Local Open Scope N_scope.
Local Open Scope model_scope.

Lemma right_codes_finish_any p d : let w := p ++ d in forall codes hints pos stop, follows p d pos hints codes stop -> (pos <= List.length w)%nat -> (List.length w <= stop)%nat ->
  (finishes w pos codes <-> forall i h c, nth_error hints i = Some h -> h <> Correct -> nth_error codes i = Some c -> right_code w (pos + codes_bytes (firstn i codes)) c).
Proof.
  intro w. induction codes as [|c codes IH]; intros hints pos stop F HP HS; inversion F as [|? h ? hints' ? ? P A F' E1 E2 E3]; subst.
  - split; [intros _ [|i] h c X; discriminate|]. intros _. split; [lia|]. cbn [lz_decode]. rewrite firstn_all2 by lia. reflexivity.
  - fold w in P.
    assert (SH : (forall i h' c', nth_error (h :: hints') i = Some h' -> h' <> Correct -> nth_error (c :: codes) i = Some c' -> right_code w (pos + codes_bytes (firstn i (c :: codes))) c')
      <-> (h <> Correct -> right_code w pos c)
          /\ (forall i h' c', nth_error hints' i = Some h' -> h' <> Correct -> nth_error codes i = Some c' -> right_code w ((pos + code_bytes c) + codes_bytes (firstn i codes)) c')).
    { split.
      - intro H. split; [intro N; specialize (H 0%nat h c eq_refl N eq_refl); cbn [firstn] in H; unfold codes_bytes in H; cbn [map fold_right] in H; now rewrite Nat.add_0_r in H|].
        intros i h' c' X N Y. specialize (H (S i) h' c' X N Y). unfold codes_bytes in *. cbn [firstn map fold_right] in H. now rewrite Nat.add_assoc in H.
      - intros [H1 H2] [|i] h' c' X N Y; [injection X as <-; injection Y as <-; unfold codes_bytes; cbn [firstn map fold_right]; rewrite Nat.add_0_r; now apply H1|].
        unfold codes_bytes in *. cbn [firstn map fold_right]. rewrite Nat.add_assoc. now apply (H2 i h' c'). }
    rewrite SH.
    assert (RC : right_code w pos c <-> (h <> Correct -> right_code w pos c)).
    { split; [auto|]. intro H. destruct h; [exact A|apply H; discriminate|apply H; discriminate]. }
    rewrite <- RC. clear SH RC. split.
    + intro G. assert (G2 := G). change (c :: codes) with ([c] ++ codes) in G2. apply finishes_app in G2. destruct G2 as [G2 G3].
      assert (EM : emitted [c] = code_bytes c) by (rewrite code_bytes_emitted; cbn [emitted]; lia). rewrite EM in *. split; [exact G2|].
      apply (IH _ _ _ F'); [apply G2|exact HS|exact G3].
    + intros [G1 G2]. apply (IH _ _ _ F') in G2; [|apply G1|exact HS]. destruct G2 as [_ G2]. split; [exact HP|].
      change (c :: codes) with ([c] ++ codes). rewrite lz_decode_app. destruct G1 as [_ ->]. exact G2.
Qed.

Lemma C81_lemma_decodes_any : forall config preroll data limit refs hints codes,
  bytes_ok preroll -> bytes_ok data -> with_sixteen preroll data limit = Ok refs -> restore hints (mkTechnique config refs) = Ok codes ->
  (encodes preroll data codes
   <-> forall i h c, nth_error hints i = Some h -> h <> Correct -> nth_error codes i = Some c ->
       right_code (preroll ++ data) (List.length preroll + codes_bytes (firstn i codes)) c).
Proof.
  intros config preroll data limit refs hints codes BP BD EW E0.
  destruct (proj1 (C81_lemma config preroll data limit refs hints BP BD EW) codes E0) as (used & rest & stop & E & F & L).
  destruct (follows_length _ _ _ _ _ _ F) as [FL _].
  rewrite <- finishes_encodes. rewrite (right_codes_finish_any preroll data codes used (List.length preroll) stop F) by (rewrite ?app_length in *; lia). split; intros H i h c X N Y; apply (H i h c); try assumption.
  - assert (Z : (i < List.length codes)%nat) by (apply nth_error_Some; now rewrite Y). rewrite E, nth_error_app1 in X by lia. exact X.
  - assert (Z : (i < List.length codes)%nat) by (apply nth_error_Some; now rewrite Y). rewrite E, nth_error_app1 by lia. exact X.
Qed.
