(** Proofs of C40 and C98 for any codes: which codes can be traced and restored again, by any technique. *)
From Verif Require Import Base M_bit M_lib M_all_refs M_technique M_trace Spec Clients Clients_restore Clients_hints
  L_P_e2e L_search L_ring L_tech L_P_tech L_trace L_strace L_P_trace L_P_encoder L_P_exact L_restore L_P_hints L_P_accept.
From Coq Require Import ZArith ZifyBool ZifyNat ZifyN.
Ltac Zify.zify_post_hook ::= Z.div_mod_to_equations.
Local Open Scope N_scope.
Local Open Scope model_scope.

Lemma covers_after total a : forall pos b, covers total pos (a ++ b) -> covers total (pos + emitted a) b.
Proof.
  induction a as [|c a IH]; intros pos b H; cbn [app covers emitted] in *; [now rewrite Nat.add_0_r|].
  destruct H as [_ H]. apply IH in H. rewrite L_restore.code_bytes_emitted in H. now rewrite Nat.add_assoc.
Qed.

Lemma any_traced w t : refs_of w (t_refs t) -> bytes_ok w ->
  forall fuel s codes, covers (List.length w) (sc_pos s) codes -> (List.length w - sc_pos s < fuel)%nat ->
  exists tr, trace_loop fuel t s codes = Ok tr /\ List.length tr = List.length codes
    /\ restore_loop fuel t s tr = opt_result (looked_up (ar_data (t_refs t)) (sc_pos s) tr codes).
Proof.
  intros R HB fuel. induction fuel as [|fuel IH]; intros s codes HF HL; [lia|]. cbn [trace_loop restore_loop] in *.
  assert (MD := more_data_spec w t s R). destruct (more_data t s) eqn:EM; symmetry in MD.
  2: { apply Nat.ltb_ge in MD. exists []. destruct codes as [|c codes]; [repeat split|]. cbn [covers] in HF. lia. }
  apply Nat.ltb_lt in MD. destruct (guess_ok w t (cfg_lookahead (t_config t)) (sc_obscured s) (sc_pos s) R HB MD) as (gs & k & EG & HN & HK & HD & _).
  fold (sc_codes t s) in EG. rewrite EG in *. cbn [obind] in *. destruct gs as [|g gs0] eqn:EGS; [congruence|]. rewrite <- EGS in *. clear HN.
  assert (EK := decodes_emitted w (sc_pos s) gs k ltac:(lia) HD). assert (HE := proj1 HD).
  destruct (shared_prefix gs codes) as [m rest] eqn:ES. destruct (shared_prefix_spec _ _ _ _ ES) as (more & E1 & E2 & HX).
  rewrite E2 in HF. assert (HR := covers_after _ _ _ _ HF).
  assert (PM := feedback_fold_pos t m s).
  destruct more as [|x more].
  - rewrite app_nil_r in E1. subst m. rewrite Nat.eqb_refl.
    assert (P1 : (1 <= emitted gs)%nat) by (rewrite EGS; apply emitted_pos).
    destruct (IH (fold_left (feedback t) gs s) rest ltac:(now rewrite PM) ltac:(rewrite PM; lia)) as (tr' & ET & EL & RS). rewrite PM in RS.
    rewrite ET. cbn [obind]. eexists. split; [reflexivity|]. split; [rewrite E2, !app_length, map_length; congruence|].
    assert (RG := restore_matched t gs [] s tr'). rewrite app_nil_r in RG. cbn [restore_guesses obind] in RG. rewrite app_nil_r in RG.
    rewrite RG. cbn [obind]. rewrite RS, E2, looked_up_corrects. destruct (looked_up _ _ tr' rest); reflexivity.
  - assert (LN : Nat.eqb (List.length m) (List.length gs) = false) by (rewrite E1, app_length; cbn [List.length]; apply Nat.eqb_neq; lia).
    rewrite LN. assert (EMM : (emitted gs = emitted m + emitted (x :: more))%nat) by (rewrite E1; apply emitted_app).
    assert (PX := emitted_pos x more).
    destruct rest as [|code rest]; [exfalso; cbn [covers] in HR; lia|].
    assert (P1 := emitted_pos code []).
    assert (PF : sc_pos (feedback t (fold_left (feedback t) m s) code) = (sc_pos s + emitted m + code_bytes code)%nat).
    { rewrite feedback_pos, PM, L_restore.code_bytes_emitted. lia. }
    assert (PB : (1 <= code_bytes code)%nat) by apply code_bytes_pos.
    cbn [covers] in HR. destruct HR as [HR1 HR2].
    destruct (IH (feedback t (fold_left (feedback t) m s) code) rest ltac:(now rewrite PF) ltac:(rewrite PF; lia)) as (tr' & ET & EL & RS). rewrite PF in RS.
    rewrite ET. cbn [obind]. eexists. split; [reflexivity|]. split; [rewrite E2, !app_length, map_length; cbn [List.length]; congruence|].
    assert (RG := restore_matched t m (x :: more) s (hint_of code :: tr')). rewrite <- E1 in RG. rewrite RG. clear RG.
    rewrite E2, looked_up_corrects. cbn [restore_guesses].
    destruct code as [b|r]; cbn [hint_of looked_up].
    + rewrite PM. unfold byte_at, get_idx. destruct (nth_error (ar_data (t_refs t)) (sc_pos s + emitted m)) as [b'|]; [|reflexivity].
      cbn [obind]. rewrite (feedback_literal t _ b' b), RS. destruct (looked_up _ _ tr' rest); [|reflexivity]. cbn [opt_result obind option_map].
      rewrite <- app_assoc. reflexivity.
    + cbn [obind]. rewrite RS. destruct (looked_up _ _ tr' rest); [|reflexivity]. cbn [opt_result obind option_map].
      rewrite <- app_assoc. reflexivity.
Qed.

Lemma any_trace : forall config preroll data limit refs codes,
  bytes_ok preroll -> bytes_ok data -> with_sixteen preroll data limit = Ok refs ->
  covers (List.length (preroll ++ data)) (List.length preroll) codes ->
  exists hints, trace codes (mkTechnique config refs) = Ok hints /\ List.length hints = List.length codes
    /\ restore hints (mkTechnique config refs) = opt_result (looked_up data (List.length preroll) hints codes)
    /\ (restore hints (mkTechnique config refs) = Ok codes <-> literals_found preroll data hints codes).
Proof.
  intros config preroll data limit refs codes BP BD EW CV. destruct (made config _ _ _ _ EW) as (R & EP & EL & ELI & ED).
  assert (HB : bytes_ok (preroll ++ data)) by now apply Forall_app.
  destruct (any_traced _ (mkTechnique config refs) R HB (S (sc_data_len (mkTechnique config refs))) (scanner (mkTechnique config refs)) codes
    ltac:(now rewrite EP) ltac:(rewrite EP, EL; lia)) as (hints & ET & ELn & ER).
  exists hints. split; [exact ET|]. split; [exact ELn|]. unfold restore. rewrite ER. cbn [t_refs]. rewrite ED, EP. split; [reflexivity|].
  assert (LS := looked_up_same data (List.length preroll) hints codes (List.length preroll) ELn (trace_literal _ _ _ _ _ ET) eq_refl).
  unfold literals_found. rewrite <- LS. destruct (looked_up data (List.length preroll) hints codes) as [o|]; cbn [opt_result]; split; congruence.
Qed.

(** C40: exactly when any codes at all come back. *)
Lemma C40_lemma_any_codes : forall config preroll data limit refs codes,
  bytes_ok preroll -> bytes_ok data -> with_sixteen preroll data limit = Ok refs ->
  ((exists hints, trace codes (mkTechnique config refs) = Ok hints /\ restore hints (mkTechnique config refs) = Ok codes)
   <-> covers (List.length (preroll ++ data)) (List.length preroll) codes
       /\ forall hints, trace codes (mkTechnique config refs) = Ok hints -> literals_found preroll data hints codes).
Proof.
  intros config preroll data limit refs codes BP BD EW. split.
  - intros (hints & ET & ER). destruct (proj1 (C81_lemma config preroll data limit refs hints BP BD EW) codes ER) as (used & rest & stop & EH & F & LS).
    assert (CV := follows_covers _ _ _ _ _ _ F LS). split; [exact CV|].
    destruct (any_trace config preroll data limit refs codes BP BD EW CV) as (hints' & ET' & _ & _ & FI). rewrite ET in ET'. injection ET' as <-.
    intros h E. rewrite ET in E. injection E as <-. now apply FI.
  - intros [CV FO]. destruct (any_trace config preroll data limit refs codes BP BD EW CV) as (hints & ET & _ & _ & FI). exists hints. split; [exact ET|].
    apply FI, FO, ET.
Qed.

(** C98, for every technique: what was restored can be traced again, and without a preroll restored again. *)
Lemma follows_literals p d pos hints codes stop : follows p d pos hints codes stop -> p = [] ->
  forall i b, nth_error codes i = Some (Literal b) -> nth_error d (pos + codes_bytes (firstn i codes)) = Some b.
Proof.
  induction 1 as [|pos h c hints codes stop Hp HA HF IH]; intros -> [|i] b E; cbn [nth_error firstn] in *; try discriminate.
  - injection E as ->. unfold codes_bytes. cbn [map fold_right]. rewrite Nat.add_0_r.
    destruct h; cbn [answers] in HA.
    + cbn [app] in HA, Hp. destruct HA as [HL HE]. cbn [code_bytes lz_decode] in HL, HE. injection HE as HE.
      assert (X : nth_error (firstn (pos + 1) d) pos = Some b).
      { rewrite <- HE. rewrite nth_error_app2 by (rewrite firstn_length; lia). rewrite firstn_length. replace (pos - Nat.min pos (List.length d))%nat with 0%nat by lia. reflexivity. }
      rewrite <- (firstn_skipn (pos + 1) d), nth_error_app1; [exact X|]. rewrite firstn_length. lia.
    + destruct HA as (b' & E & [= ->]). exact E.
    + discriminate.
  - rewrite <- (IH eq_refl i b E). f_equal. unfold codes_bytes. cbn [map fold_right]. lia.
Qed.

Lemma C98_lemma_retrace : forall config preroll data limit refs other codes,
  bytes_ok preroll -> bytes_ok data -> with_sixteen preroll data limit = Ok refs -> restore other (mkTechnique config refs) = Ok codes ->
  exists hints, trace codes (mkTechnique config refs) = Ok hints
    /\ (List.length hints <= List.length other)%nat
    /\ (restore hints (mkTechnique config refs) = Ok codes <-> literals_found preroll data hints codes)
    /\ (preroll = [] -> restore hints (mkTechnique config refs) = Ok codes).
Proof.
  intros config preroll data limit refs other codes BP BD EW ER.
  destruct (proj1 (C81_lemma config preroll data limit refs other BP BD EW) codes ER) as (used & rest & stop & EH & F & LS).
  assert (CV := follows_covers _ _ _ _ _ _ F LS).
  destruct (any_trace config preroll data limit refs codes BP BD EW CV) as (hints & ET & EL & _ & FI). exists hints.
  split; [exact ET|]. split; [rewrite EH, app_length, EL; destruct (follows_length _ _ _ _ _ _ F); lia|]. split; [exact FI|].
  intros E0. apply FI. intros i b _ EB. rewrite E0 in *. exact (follows_literals _ _ _ _ _ _ F eq_refl i b EB).
Qed.
