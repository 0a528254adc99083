(** Lemmas: bit vectors under any history of pushes and pops. *)
From Verif Require Import Base M_bit Spec Clients Clients_stack L_bits L_stored.
From Coq Require Import ZArith ZifyBool ZifyNat ZifyN.
Ltac Zify.zify_post_hook ::= Z.div_mod_to_equations.
Local Open Scope N_scope.
Local Open Scope model_scope.

Definition holds (v : bitvec) (l left : list bool) : Prop :=
  bv_len v = List.length l /\ bytes_ok (bv_bytes v) /\ bits_of_bytes (bv_bytes v) = l ++ left /\ (List.length left < 8)%nat.

Lemma lsb_lor_bit a : forall n w s r, lsb n w = a ++ s :: r ->
  lsb n (N.lor w (N.shiftl 1 (N.of_nat (List.length a)))) = a ++ true :: r.
Proof.
  induction a as [|x a IH]; intros n w s r E.
  - destruct n as [|n]; [discriminate|]. rewrite lsb_S in *. cbn [app List.length] in *. injection E as E1 E2.
    change (N.shiftl 1 (N.of_nat 0)) with 1. rewrite N.lor_spec. rewrite orb_true_r. f_equal. rewrite <- E2. f_equal.
    rewrite <- !N.div2_div. apply N.bits_inj. intro i. rewrite !N.div2_spec, !N.shiftr_spec', N.lor_spec.
    replace (N.testbit 1 (i + 1)) with false; [now rewrite orb_false_r|].
    symmetry. replace (i + 1) with (N.succ i) by lia. change 1 with (2 * 0 + 1). rewrite N.testbit_odd_succ by lia. apply N.bits_0.
  - destruct n as [|n]; [discriminate|]. rewrite lsb_S in *. cbn [app] in *. injection E as E1 E2.
    rewrite <- (IH _ _ _ _ E2). f_equal.
    + rewrite N.lor_spec, E1. rewrite N.shiftl_1_l, N.pow2_bits_false by (cbn [List.length]; lia). apply orb_false_r.
    + f_equal. rewrite <- !N.div2_div. apply N.bits_inj. intro i. rewrite !N.lor_spec, !N.div2_spec, !N.shiftr_spec', N.lor_spec. f_equal.
      rewrite !N.shiftl_1_l, !N.pow2_bits_eqb. cbn [List.length]. destruct (N.eqb_spec (N.of_nat (S (List.length a))) (i + 1)), (N.eqb_spec (N.of_nat (List.length a)) i); try reflexivity; lia.
Qed.

Lemma lor_bit_byte w k : w < 256 -> (k < 8)%nat -> N.lor w (N.shiftl 1 (N.of_nat k)) < 256.
Proof.
  intros Hw Hk. destruct (N.eq_dec (N.lor w (N.shiftl 1 (N.of_nat k))) 0) as [->|H0]; [lia|].
  change 256 with (2 ^ 8). apply N.log2_lt_pow2; [lia|]. rewrite N.log2_lor. rewrite N.shiftl_1_l, N.log2_pow2 by lia.
  apply N.max_lub_lt; [|lia]. destruct (N.eq_dec w 0) as [->|]; [cbn; lia|]. apply N.log2_lt_pow2; [lia|exact Hw].
Qed.

Lemma upd_app_last {A} (B : list A) w x : upd (B ++ [w]) (List.length B) x = B ++ [x].
Proof. induction B as [|y B IH]; cbn [app List.length upd]; [reflexivity|]. now rewrite IH. Qed.

Lemma upd_idx B w x k : k = List.length B -> set_idx (B ++ [w]) k x = Ok (B ++ [x]) /\ get_idx (B ++ [w]) k = Ok w :> outcome N.
Proof.
  intros ->. unfold set_idx, get_idx. rewrite nth_error_app2, Nat.sub_diag by lia. cbn [nth_error]. split; [|reflexivity].
  rewrite app_length. cbn [List.length]. replace (Nat.ltb _ _) with true by (symmetry; apply Nat.ltb_lt; lia). f_equal. apply upd_app_last.
Qed.

(** The last byte of the vector, when something is left over in it. *)
Lemma holds_split v l s left : holds v l (s :: left) ->
  exists B w a, bv_bytes v = B ++ [w] /\ l = bits_of_bytes B ++ a /\ lsb 8 w = a ++ s :: left /\ bytes_ok B /\ w < 256
    /\ (List.length l / 8 = List.length B)%nat /\ (List.length l mod 8 = List.length a)%nat.
Proof.
  intros (HL & HB & HE & HK). assert (LE := f_equal (@List.length bool) HE). rewrite bits_of_bytes_length, app_length in LE. cbn [List.length] in *.
  destruct (bv_bytes v) as [|w B] using rev_ind; [cbn in LE; lia|]. clear IHB.
  rewrite bits_of_bytes_app in HE. apply Forall_app in HB. destruct HB as [HB Hw]. inversion Hw; subst.
  rewrite app_length in LE. cbn [List.length] in LE. assert (LB := bits_of_bytes_length B).
  cbn [bits_of_bytes flat_map] in HE. rewrite app_nil_r in HE. fold (bits_of_bytes B) in HE. assert (LW := lsb_length 8 w).
  exists B, w, (skipn (List.length (bits_of_bytes B)) l).
  assert (EF : bits_of_bytes B = firstn (List.length (bits_of_bytes B)) l).
  { assert (X := f_equal (firstn (List.length (bits_of_bytes B))) HE). rewrite firstn_app, Nat.sub_diag, firstn_all, firstn_O, app_nil_r in X.
    rewrite firstn_app in X. replace (List.length (bits_of_bytes B) - List.length l)%nat with 0%nat in X by lia. now rewrite firstn_O, app_nil_r in X. }
  split; [reflexivity|]. split; [rewrite EF at 1; symmetry; apply firstn_skipn|]. split.
  { assert (X := f_equal (skipn (List.length (bits_of_bytes B))) HE). rewrite skipn_app, Nat.sub_diag, skipn_all in X. cbn [app] in X. rewrite skipn_O in X.
    rewrite X, skipn_app. replace (List.length (bits_of_bytes B) - List.length l)%nat with 0%nat by lia. reflexivity. }
  split; [exact HB|]. split; [assumption|]. rewrite skipn_length. split; lia.
Qed.

Lemma holds_push v l left b : holds v l left ->
  exists v', bv_push v b = Ok v' /\ holds v' (fst (leftover_push b l left)) (snd (leftover_push b l left)).
Proof.
  intro H. destruct left as [|s left].
  - destruct H as (HL & HB & HE & HK). rewrite app_nil_r in HE. assert (LE := f_equal (@List.length bool) HE). rewrite bits_of_bytes_length in LE.
    unfold bv_push, WORD_SIZE. rewrite HL.
    replace (Nat.leb _ _) with true by (symmetry; apply Nat.leb_le; lia).
    replace (Nat.eqb _ _) with true by (symmetry; apply Nat.eqb_eq; lia). cbn [obind].
    replace (List.length l mod 8)%nat with 0%nat by lia.
    destruct (upd_idx (bv_bytes v) 0 (N.lor 0 (N.shiftl 1 (N.of_nat 0))) (List.length l / 8) ltac:(lia)) as [ES EG].
    cbn [leftover_push fst snd]. destruct b.
    + rewrite EG. cbn [obind]. rewrite ES. cbn [obind]. eexists. split; [reflexivity|]. unfold holds. cbn [bv_len bv_bytes].
      rewrite app_length. cbn [List.length]. split; [lia|]. split; [apply Forall_app; split; [exact HB|repeat constructor]|].
      rewrite bits_of_bytes_app, HE, <- app_assoc. split; [reflexivity|]. rewrite repeat_length. lia.
    + cbn [obind]. eexists. split; [reflexivity|]. unfold holds. cbn [bv_len bv_bytes].
      rewrite app_length. cbn [List.length]. split; [lia|]. split; [apply Forall_app; split; [exact HB|repeat constructor]|].
      rewrite bits_of_bytes_app, HE, <- app_assoc. split; [reflexivity|]. rewrite repeat_length. lia.
  - destruct (holds_split _ _ _ _ H) as (B & w & a & EB & El & EW & HB & Hw & Dv & Md). destruct H as (HL & _ & HE & HK).
    unfold bv_push, WORD_SIZE. rewrite HL, EB, Dv, Md.
    replace (Nat.leb _ _) with false by (symmetry; apply Nat.leb_gt; rewrite app_length; cbn [List.length]; lia). cbn [obind].
    destruct (upd_idx B w (N.lor w (N.shiftl 1 (N.of_nat (List.length a)))) (List.length B) eq_refl) as [ES EG].
    cbn [leftover_push fst snd]. cbn [List.length] in HK. destruct b.
    + rewrite EG. cbn [obind]. rewrite ES. cbn [obind orb]. eexists. split; [reflexivity|]. unfold holds. cbn [bv_len bv_bytes].
      rewrite app_length. cbn [List.length]. split; [lia|]. split.
      { apply Forall_app. split; [exact HB|]. constructor; [|constructor]. apply lor_bit_byte; [exact Hw|lia]. }
      split; [|lia]. rewrite bits_of_bytes_app, El. cbn [bits_of_bytes flat_map]. rewrite app_nil_r, (lsb_lor_bit _ _ _ _ _ EW), <- !app_assoc. reflexivity.
    + cbn [obind orb]. eexists. split; [reflexivity|]. unfold holds. cbn [bv_len bv_bytes].
      rewrite app_length. cbn [List.length]. split; [lia|]. split.
      { apply Forall_app. split; [exact HB|]. constructor; [exact Hw|constructor]. }
      split; [|lia]. rewrite <- EB, HE, <- app_assoc. reflexivity.
Qed.

Lemma holds_get v l left i b : holds v l left -> nth_error l i = Some b -> bv_get v i = Ok b.
Proof.
  intros (HL & HB & HE & HK) Hi. assert (i < List.length l)%nat by (apply nth_error_Some; congruence).
  assert (LE := f_equal (@List.length bool) HE). rewrite bits_of_bytes_length, app_length in LE.
  assert (HP : bv_bytes v = pack (l ++ left)) by (rewrite <- HE; symmetry; now apply pack_bits_of_bytes).
  assert (HN : nth_error (l ++ left) i = Some b) by (rewrite nth_error_app1 by lia; exact Hi).
  destruct (pack_nth _ _ _ HN) as (w & Hw & Hb).
  unfold bv_get, WORD_SIZE. rewrite HL. replace (Nat.ltb _ _) with true by (symmetry; apply Nat.ltb_lt; lia).
  unfold get_idx. rewrite HP, Hw. cbn [obind]. now rewrite land_pow2_test, Hb.
Qed.

Lemma holds_pop v l left : holds v l left ->
  exists v', bv_pop v = Ok (match l with [] => None | _ => Some (last l false) end, v')
    /\ holds v' (fst (leftover_pop l left)) (snd (leftover_pop l left)).
Proof.
  intro H. unfold bv_pop. rewrite (proj1 H). destruct l as [|b l] using rev_ind.
  - exists v. split; [reflexivity|exact H].
  - clear IHl. rewrite app_length. cbn [List.length]. replace (Nat.eqb 0 _) with false by (symmetry; apply Nat.eqb_neq; lia).
    replace (List.length l + 1 - 1)%nat with (List.length l) by lia.
    rewrite (holds_get _ _ _ _ b H) by (apply nth_error_app_mid; reflexivity). cbn [obind]. unfold WORD_SIZE.
    assert (ELP : leftover_pop (l ++ [b]) left = (l, if Nat.eqb (List.length l mod 8) 0 then [] else b :: left)).
    { unfold leftover_pop. rewrite removelast_last, last_last. destruct (l ++ [b]) eqn:E; [destruct l; discriminate|reflexivity]. }
    rewrite ELP. cbn [fst snd]. rewrite last_last.
    eexists. split; [destruct (l ++ [b]) eqn:E; [destruct l; discriminate|reflexivity]|].
    destruct H as (HL & HB & HE & HK). assert (LE := f_equal (@List.length bool) HE). rewrite bits_of_bytes_length, !app_length in LE. cbn [List.length] in LE.
    rewrite <- app_assoc in HE. cbn [app] in HE.
    unfold holds. cbn [bv_len bv_bytes]. split; [reflexivity|].
    destruct (Nat.eqb_spec (List.length l mod 8) 0) as [E|E].
    + destruct (bv_bytes v) as [|w B] using rev_ind; [cbn in LE; lia|]. clear IHB. rewrite removelast_last.
      apply Forall_app in HB. destruct HB as [HB Hw]. split; [exact HB|]. rewrite app_nil_r.
      rewrite app_length in LE. cbn [List.length] in LE.
      assert (LB := bits_of_bytes_length B). split; [|cbn; lia].
      rewrite bits_of_bytes_app in HE. assert (LL : List.length (bits_of_bytes B) = List.length l) by lia.
      assert (X := f_equal (firstn (List.length l)) HE). rewrite <- LL in X at 1. rewrite !firstn_app, LL, !Nat.sub_diag, !firstn_O, !app_nil_r in X.
      rewrite <- LL in X at 1. now rewrite !firstn_all in X.
    + split; [exact HB|]. split; [exact HE|]. cbn [List.length]. lia.
Qed.

Lemma holds_run ops : forall v l left, holds v l left ->
  exists v', run_vec_ops ops v = Ok (fst (leftover_ops ops l left), v')
    /\ holds v' (fst (snd (leftover_ops ops l left))) (snd (snd (leftover_ops ops l left))).
Proof.
  induction ops as [|[b|] ops IH]; intros v l left H; cbn [run_vec_ops leftover_ops].
  - exists v. split; [reflexivity|exact H].
  - destruct (holds_push v l left b H) as (v1 & E1 & H1). rewrite E1. cbn [obind]. apply IH. exact H1.
  - destruct (holds_pop v l left H) as (v1 & E1 & H1). rewrite E1. cbn [obind fst snd]. destruct (IH _ _ _ H1) as (v2 & E2 & H2).
    rewrite E2. cbn [obind fst snd]. exists v2. split; [reflexivity|exact H2].
Qed.

Lemma holds_repr v l left : holds v l left -> bv_repr v l.
Proof.
  intro H. assert (H' := H). destruct H' as (HL & HB & HE & HK). split; [exact HL|].
  assert (LE := f_equal (@List.length bool) HE). rewrite bits_of_bytes_length, app_length in LE. split; [lia|].
  intros i b Hi. assert (i < List.length l)%nat by (apply nth_error_Some; congruence).
  assert (HP : bv_bytes v = pack (l ++ left)) by (rewrite <- HE; symmetry; now apply pack_bits_of_bytes).
  rewrite HP. apply pack_nth. rewrite nth_error_app1 by lia. exact Hi.
Qed.

Lemma holds_list v l left : holds v l left -> bv_to_list v = Ok l.
Proof.
  intro H. unfold bv_to_list, bv_iter. rewrite (proj1 H). rewrite (repr_si_collect _ _ _ (holds_repr _ _ _ H)) by lia. reflexivity.
Qed.

Lemma holds_new : holds bv_new [] [].
Proof. split; [reflexivity|]. split; [constructor|]. split; [reflexivity|]. cbn. lia. Qed.

Lemma holds_eq v l left v' l' left' : holds v l left -> holds v' l' left' -> (bv_eqb v v' = true <-> l = l' /\ left = left').
Proof.
  intros (HL & HB & HE & _) (HL' & HB' & HE' & _). unfold bv_eqb. rewrite andb_true_iff. rewrite HL, HL', Nat.eqb_eq.
  destruct (list_eq_dec N.eq_dec (bv_bytes v) (bv_bytes v')) as [E|E]; split.
  - intros [_ LL]. rewrite E, HE' in HE. assert (X : l = l').
    { assert (Y := f_equal (firstn (List.length l)) HE). rewrite !firstn_app, Nat.sub_diag, firstn_O, app_nil_r in Y.
      rewrite LL in Y at 1 2. rewrite Nat.sub_diag, firstn_O, app_nil_r in Y. rewrite !firstn_all in Y. congruence. }
    subst l'. apply app_inv_head in HE. auto.
  - intros [-> ->]. split; reflexivity.
  - intros [X _]. discriminate.
  - intros [-> ->]. destruct E. rewrite <- (pack_bits_of_bytes (bv_bytes v) HB), <- (pack_bits_of_bytes (bv_bytes v') HB'). congruence.
Qed.

Lemma C03_lemma_exact : forall history, let '(pops, (l, leftover)) := leftover_ops history [] [] in
  exists v, run_vec_ops history bv_new = Ok (pops, v)
    /\ bv_len v = List.length l
    /\ bv_to_list v = Ok l
    /\ (forall i b, nth_error l i = Some b -> bv_get v i = Ok b)
    /\ bv_bytes v = pack (l ++ leftover).
Proof.
  intro history. destruct (holds_run history _ _ _ holds_new) as (v & E & H). destruct (leftover_ops history [] []) as [pops [l left]].
  cbn [fst snd] in *. exists v. split; [exact E|]. split; [apply H|]. split; [now apply (holds_list v l left)|].
  split; [intros; eapply holds_get; eauto|]. rewrite <- (pack_bits_of_bytes (bv_bytes v)) by apply H. f_equal. apply H.
Qed.

Lemma C03_lemma_eq : forall one other pops v pops' v',
  run_vec_ops one bv_new = Ok (pops, v) -> run_vec_ops other bv_new = Ok (pops', v') ->
  (bv_eqb v v' = true <-> snd (leftover_ops one [] []) = snd (leftover_ops other [] [])).
Proof.
  intros one other pops v pops' v' E E'.
  destruct (holds_run one _ _ _ holds_new) as (w & F & H). destruct (holds_run other _ _ _ holds_new) as (w' & F' & H').
  rewrite E in F. rewrite E' in F'. injection F as _ <-. injection F' as _ <-. rewrite (holds_eq _ _ _ _ _ _ H H').
  destruct (snd (leftover_ops one [] [])), (snd (leftover_ops other [] [])). cbn [fst snd]. split; [intros [-> ->]; reflexivity|intro X; injection X as -> ->; auto].
Qed.

(** Agreement with a plain list. *)
Lemma agree_step b l left : snd (list_vec_ops [VPush b] l) = fst (leftover_push b l left) <-> (hd_error left = Some true -> b = true).
Proof.
  cbn [list_vec_ops snd]. destruct left as [|s left]; cbn [leftover_push fst hd_error].
  - split; [discriminate|reflexivity].
  - split.
    + intros E X. injection X as ->. apply app_inv_head in E. injection E as E. destruct b; [reflexivity|discriminate].
    + intro H. destruct s; [rewrite H by reflexivity; reflexivity|]. now rewrite orb_false_r.
Qed.

Lemma agree_iff ops : forall l left,
  (forall n, snd (list_vec_ops (firstn n ops) l) = fst (snd (leftover_ops (firstn n ops) l left))) <-> no_stale_one ops l left.
Proof.
  induction ops as [|[b|] ops IH]; intros l left.
  - split; [exact (fun _ => I)|]. intros _ n. rewrite firstn_nil. reflexivity.
  - cbn [no_stale_one]. rewrite <- agree_step, <- IH. split.
    + intro H. assert (H1 := H 1%nat). cbn [firstn] in H1. split; [exact H1|]. intro n. specialize (H (S n)). cbn [firstn list_vec_ops leftover_ops] in H.
      cbn [list_vec_ops leftover_ops snd fst] in H1. rewrite <- H1 at 1. exact H.
    + intros [H1 H] [|n]; [reflexivity|]. cbn [firstn list_vec_ops leftover_ops]. specialize (H n). cbn [list_vec_ops snd] in H1. rewrite <- H1 in H at 1. exact H.
  - cbn [no_stale_one]. assert (HP : fst (leftover_pop l left) = removelast l) by (destruct l; reflexivity).
    rewrite <- IH, HP. split.
    + intros H n. specialize (H (S n)). cbn [firstn list_vec_ops leftover_ops fst snd] in H. rewrite HP in H. exact H.
    + intros H [|n]; [reflexivity|]. cbn [firstn list_vec_ops leftover_ops fst snd]. rewrite HP. apply H.
Qed.

Lemma C03_lemma_iff : forall history,
  (forall n, exists pops v, run_vec_ops (firstn n history) bv_new = Ok (pops, v) /\ bv_to_list v = Ok (snd (list_vec_ops (firstn n history) [])))
  <-> no_stale_one history [] [].
Proof.
  intro history. rewrite <- agree_iff. split; intros H n; specialize (H n).
  - destruct H as (pops & v & E & L). destruct (holds_run (firstn n history) _ _ _ holds_new) as (v' & E' & H').
    rewrite E in E'. injection E' as _ <-. rewrite (holds_list _ _ _ H') in L. injection L as L. congruence.
  - destruct (holds_run (firstn n history) _ _ _ holds_new) as (v' & E' & H'). exists (fst (leftover_ops (firstn n history) [] [])), v'.
    split; [exact E'|]. rewrite (holds_list _ _ _ H'). congruence.
Qed.

Lemma pops_agree ops : forall l left, no_stale_one ops l left -> fst (list_vec_ops ops l) = fst (leftover_ops ops l left).
Proof.
  induction ops as [|[b|] ops IH]; intros l left H; [reflexivity| |].
  - destruct H as [H1 H]. apply (proj2 (agree_step b l left)) in H1. cbn [list_vec_ops snd leftover_ops] in *. rewrite H1. now apply IH.
  - cbn [no_stale_one] in H. cbn [list_vec_ops leftover_ops fst]. f_equal. assert (HP : fst (leftover_pop l left) = removelast l) by (destruct l; reflexivity).
    rewrite <- HP. now apply IH.
Qed.

Lemma C03_lemma_stack : forall history, no_stale_one history [] [] ->
  exists v, run_vec_ops history bv_new = Ok (fst (list_vec_ops history []), v)
    /\ bv_len v = List.length (snd (list_vec_ops history []))
    /\ bv_to_list v = Ok (snd (list_vec_ops history [])).
Proof.
  intros history H. destruct (holds_run history _ _ _ holds_new) as (v & E & HH). rewrite <- (pops_agree _ _ _ H) in E.
  assert (EL := proj2 (agree_iff history [] []) H (List.length history)). rewrite firstn_all in EL. rewrite <- EL in HH.
  exists v. split; [exact E|]. split; [apply HH|]. eapply holds_list; eauto.
Qed.

Lemma C03_lemma_eq_refuted : exists one other pops v pops' v' l,
  run_vec_ops one bv_new = Ok (pops, v) /\ run_vec_ops other bv_new = Ok (pops', v')
  /\ bv_to_list v = Ok l /\ bv_to_list v' = Ok l /\ bv_eqb v v' = false.
Proof.
  exists [VPush true; VPush true; VPop], [VPush true]. eexists. eexists. eexists. eexists. exists [true].
  split; [vm_compute; reflexivity|]. split; [vm_compute; reflexivity|]. split; [reflexivity|]. split; reflexivity.
Qed.

(** [from_slice] is the vector with the bits of the bytes pushed. *)
Lemma C03_lemma_slice : forall bytes ops, bytes_ok bytes ->
  run_vec_ops ops (bv_from_slice bytes) = run_vec_ops (map VPush (bits_of_bytes bytes) ++ ops) bv_new.
Proof.
  intros bytes ops HB. rewrite bv_from_slice_spec by exact HB. change bv_new with (bitvec_of []).
  destruct (run_vec_pushes (bits_of_bytes bytes) ops [] []) as [E _]. symmetry. exact E.
Qed.
