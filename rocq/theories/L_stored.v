(** Lemmas: byte-aligned reads, and the bit vector as a stack. *)
From Verif Require Import Base M_bit M_lib M_parse Spec Clients L_bits L_writer L_reader L_bitprops.
From Coq Require Import ZArith ZifyBool ZifyNat ZifyN.
Ltac Zify.zify_post_hook ::= Z.div_mod_to_equations.
Local Open Scope N_scope.
Local Open Scope model_scope.

(** A byte-aligned reader. *)
Definition Rbra (e : errkind) (bs : list bool) (r : bit_reader) : Prop :=
  Rbr e bs r /\ (List.length bs mod 8 = 0)%nat.

Lemma Rbra_bytes e bs r : Rbra e bs r ->
  br_remaining r = 0 /\ bs = bits_of_bytes (rest (br_inner r)) /\ bytes_ok (rest (br_inner r)).
Proof.
  intros [H Hm]. assert (Hr := Rbr_rem _ _ _ H). rewrite Hm in Hr.
  destruct H as (H1 & H2 & H3 & H4 & H5). split; [exact Hr|]. split; [|exact H4].
  rewrite H5, Hr. rewrite skipn_all2 by (rewrite lsb_length; lia). reflexivity.
Qed.

Lemma firstn_bits n l : firstn (8 * n) (bits_of_bytes l) = bits_of_bytes (firstn n l).
Proof.
  revert l. induction n; intro l; [reflexivity|].
  destruct l as [|x l]; [now rewrite firstn_nil|].
  cbn [firstn]. rewrite !bits_of_bytes_cons.
  replace (8 * S n)%nat with (List.length (lsb 8 x) + 8 * n)%nat by (rewrite lsb_length; lia).
  rewrite firstn_app_2. now rewrite IHn.
Qed.

Lemma skipn_bits n l : skipn (8 * n) (bits_of_bytes l) = bits_of_bytes (skipn n l).
Proof.
  revert l. induction n; intro l; [reflexivity|].
  destruct l as [|x l]; [now rewrite skipn_nil|].
  cbn [skipn]. rewrite !bits_of_bytes_cons.
  rewrite skipn_app, lsb_length. rewrite skipn_all2 by (rewrite lsb_length; lia). cbn [app].
  replace (8 * S n - 8)%nat with (8 * n)%nat by lia. apply IHn.
Qed.

Lemma bytes_ok_firstn n l : bytes_ok l -> bytes_ok (firstn n l).
Proof. intro H. rewrite <- (firstn_skipn n l) in H. now apply Forall_app in H. Qed.
Lemma bytes_ok_skipn n l : bytes_ok l -> bytes_ok (skipn n l).
Proof. intro H. rewrite <- (firstn_skipn n l) in H. now apply Forall_app in H. Qed.

Definition lb_read_bytes (k : eofk) (n : nat) : M (list bool) (list N) :=
  fun bs => if Nat.leb (8 * n) (List.length bs)
            then (Ok (pack (firstn (8 * n) bs)), skipn (8 * n) bs)
            else (eof_out k, []).

Lemma lb_read_bytes_ok k n bs a bs' : lb_read_bytes k n bs = (Ok a, bs') -> bytes_ok a.
Proof.
  unfold lb_read_bytes. generalize (8 * n)%nat. intro m. destruct (Nat.leb _ _); intro E.
  - inversion E; subst. apply pack_bytes_ok.
  - destruct k; discriminate.
Qed.

Lemma sim_inner_read_exact e n : sim (Rbra e) (lb_read_bytes (EofErr (EIo e)) n) (br_inner_read_exact n).
Proof.
  intros bs r HR. destruct (Rbra_bytes _ _ _ HR) as (Hrem & Hbs & Hok).
  destruct HR as [HR Hm]. destruct HR as (H1 & H2 & H3 & H4 & H5).
  destruct r as [[rs ae] cur rem tr]. cbn [br_inner rest at_end br_remaining br_track br_current] in *.
  subst rem tr ae.
  unfold br_inner_read_exact, zoom, read_exact, lb_read_bytes. cbn [br_inner rest at_end br_current br_remaining br_track].
  clear H5. subst bs. rewrite bits_of_bytes_length.
  destruct (Nat.leb_spec n (List.length rs)); destruct (Nat.leb_spec (8 * n) (8 * List.length rs)); try lia.
  - cbn [fst snd]. rewrite firstn_bits, skipn_bits, pack_bits_of_bytes by now apply bytes_ok_firstn.
    eexists. split; [reflexivity|]. split.
    + unfold Rbr. cbn [br_inner rest at_end br_remaining br_track br_current].
      repeat split; auto using bytes_ok_skipn.
    + rewrite bits_of_bytes_length. lia.
  - cbn [fst snd eof_out]. eexists. split; [reflexivity|]. split; [|reflexivity].
    unfold Rbr. cbn [br_inner rest at_end br_remaining br_track br_current].
    repeat split; auto; constructor.
Qed.

Lemma Rbra_assert_aligned e bs r : Rbra e bs r -> br_assert_aligned r = (Ok tt, r).
Proof.
  intros [HR Hm]. unfold br_assert_aligned, bind. rewrite (br_position_spec _ _ _ HR), Hm. reflexivity.
Qed.

Lemma sim_noop {S A} (R : list bool -> S -> Prop) (c : M S unit) (m1 : M _ A) m2 :
  (forall bs s, R bs s -> c s = (Ok tt, s)) -> sim R m1 m2 -> sim R m1 (c ;;; m2).
Proof. intros Hc H bs s HR. unfold bind. rewrite (Hc _ _ HR). now apply H. Qed.

Lemma shiftl8_lor a b : a < 256 -> N.lor (N.shiftl b 8) a = a + 256 * b.
Proof.
  intro H. rewrite N.shiftl_mul_pow2.
  assert (E : N.land (b * 2 ^ 8) a = 0).
  { apply N.bits_inj. intro i. rewrite N.land_spec, N.bits_0.
    destruct (N.lt_ge_cases i 8) as [L|L].
    - rewrite N.mul_pow2_bits_low by assumption. reflexivity.
    - assert (N.testbit a i = false) as ->; [|apply andb_false_r].
      destruct (N.eq_dec a 0) as [->|]; [apply N.bits_0|].
      apply N.bits_above_log2. eapply N.lt_le_trans; [|exact L]. apply N.log2_lt_pow2; [lia|exact H]. }
  rewrite <- N.lxor_lor by exact E. rewrite <- N.add_nocarry_lxor by exact E. lia.
Qed.

Definition lb_u16 (k : eofk) : M (list bool) N :=
  buf <- lb_read_bytes k 2 ;; ret (nth 0 buf 0 + 256 * nth 1 buf 0).

Lemma sim_u16 e : sim (Rbra e) (lb_u16 (EofErr (EIo e))) br_read_aligned_u16.
Proof.
  unfold br_read_aligned_u16, lb_u16.
  apply sim_noop; [apply Rbra_assert_aligned|].
  apply sim_noop; [intros bs r []; eapply Rbr_untracked; eauto|].
  intros bs r HR.
  destruct (sim_inner_read_exact e 2 bs r HR) as (s' & E & R').
  unfold bind. rewrite E. destruct (lb_read_bytes (EofErr (EIo e)) 2 bs) as [o bs'] eqn:EL.
  cbn [fst snd] in *. destruct o; cbn [fst snd ret]; eauto.
  eexists. split; [|exact R']. unfold ret. cbn [fst]. do 2 f_equal.
  apply shiftl8_lor.
  apply lb_read_bytes_ok in EL. destruct a as [|x t]; [reflexivity|]. now inversion EL.
Qed.

Definition lb_length_prefixed (k : eofk) : M (list bool) (list N) :=
  len <- lb_u16 k ;;
  c <- lb_u16 k ;;
  ensure (N.lxor len 65535 =? c) "uncompressed block length validation failed" ;;;
  lb_read_bytes k (N.to_nat len).

Lemma sim_length_prefixed e :
  sim (Rbra e) (lb_length_prefixed (EofErr (EIo e))) br_read_length_prefixed.
Proof.
  unfold br_read_length_prefixed, lb_length_prefixed.
  apply sim_noop; [apply Rbra_assert_aligned|].
  apply sim_noop; [intros bs r []; eapply Rbr_untracked; eauto|].
  apply sim_bind; [apply sim_u16|]. intro.
  apply sim_bind; [apply sim_u16|]. intro.
  apply sim_bind; [apply sim_ensure|]. intro. apply sim_inner_read_exact.
Qed.

(** On bytes. *)
Lemma lb_read_bytes_bits k n l : bytes_ok l ->
  lb_read_bytes k n (bits_of_bytes l)
  = if Nat.leb n (List.length l) then (Ok (firstn n l), bits_of_bytes (skipn n l)) else (eof_out k, []).
Proof.
  intro H. unfold lb_read_bytes. rewrite bits_of_bytes_length, firstn_bits, skipn_bits.
  rewrite pack_bits_of_bytes by now apply bytes_ok_firstn.
  destruct (Nat.leb_spec n (List.length l)); destruct (Nat.leb_spec (8 * n) (8 * List.length l)); try lia; reflexivity.
Qed.

Lemma lb_length_prefixed_ok k l data bs' : bytes_ok l ->
  lb_length_prefixed k (bits_of_bytes l) = (Ok data, bs') <->
  exists t, N.of_nat (List.length data) < 65536 /\ bs' = bits_of_bytes t /\
    l = le16_bytes (N.of_nat (List.length data)) ++ le16_bytes (65535 - N.of_nat (List.length data)) ++ data ++ t.
Proof.
  intro H. unfold lb_length_prefixed, lb_u16. split.
  - intro E. unfold bind in E. rewrite lb_read_bytes_bits in E by assumption.
    destruct l as [|b0 [|b1 l]]; try (destruct k; discriminate).
    cbn [List.length Nat.leb firstn skipn nth ret] in E.
    inversion H; subst. inversion H3; subst.
    unfold ret in E. rewrite lb_read_bytes_bits in E by assumption.
    destruct l as [|b2 [|b3 l]]; try (destruct k; discriminate).
    cbn [List.length Nat.leb firstn skipn nth ret] in E.
    inversion H5; subst. inversion H7; subst.
    unfold is_byte in *.
    rewrite lxor_ffff in E by lia.
    destruct (N.eqb_spec (65535 - (b0 + 256 * b1)) (b2 + 256 * b3)) as [E1|]; [|discriminate].
    cbn [ensure ret] in E. unfold ret in E. rewrite lb_read_bytes_bits in E by assumption.
    destruct (Nat.leb_spec (N.to_nat (b0 + 256 * b1)) (List.length l)) as [L|]; [|destruct k; discriminate].
    apply ok_inj in E. destruct E as [<- <-]. exists (skipn (N.to_nat (b0 + 256 * b1)) l).
    rewrite firstn_length, Nat.min_l by assumption. rewrite N2Nat.id.
    split; [lia|]. split; [reflexivity|]. rewrite firstn_skipn. unfold le16_bytes. cbn [app].
    repeat f_equal; lia.
  - intros (t & Hl & -> & ->). set (n := N.of_nat (List.length data)) in *.
    unfold le16_bytes in *. cbn [app] in *.
    do 4 apply Forall_inv_tail in H.
    unfold bind.
    assert (B : bytes_ok (n mod 256 :: n / 256 :: (65535 - n) mod 256 :: (65535 - n) / 256 :: data ++ t)).
    { repeat constructor; try (unfold is_byte; lia). exact H. }
    rewrite lb_read_bytes_bits by exact B. cbn [List.length Nat.leb firstn skipn nth]. unfold ret.
    do 2 apply Forall_inv_tail in B.
    rewrite lb_read_bytes_bits by exact B. cbn [List.length Nat.leb firstn skipn nth]. 
    replace (n mod 256 + 256 * (n / 256)) with n by lia.
    replace ((65535 - n) mod 256 + 256 * ((65535 - n) / 256)) with (65535 - n) by lia.
    rewrite lxor_ffff by assumption. rewrite N.eqb_refl. cbn [ensure]. unfold ret.
    rewrite lb_read_bytes_bits by exact H.
    replace (N.to_nat n) with (List.length data) by lia.
    rewrite app_length. replace (Nat.leb _ _) with true by (symmetry; apply Nat.leb_le; lia).
    rewrite firstn_app, Nat.sub_diag, firstn_all, firstn_O, app_nil_r.
    rewrite skipn_app, skipn_all, Nat.sub_diag. reflexivity.
Qed.

(** ** Stack *)
Definition bv_repr (v : bitvec) (bs : list bool) : Prop :=
  bv_len v = List.length bs /\ List.length (bv_bytes v) = ((List.length bs + 7) / 8)%nat /\
  forall i b, nth_error bs i = Some b ->
    exists w, nth_error (bv_bytes v) (i / 8) = Some w /\ N.testbit w (N.of_nat (i mod 8)) = b.

Lemma repr_bitvec_of bs : bv_repr (bitvec_of bs) bs.
Proof.
  split; [reflexivity|]. split; [apply pack_length|]. intros. now apply pack_nth.
Qed.

Lemma repr_get v bs i b : bv_repr v bs -> nth_error bs i = Some b -> bv_get v i = Ok b.
Proof.
  intros (H1 & H2 & H3) E. unfold bv_get, WORD_SIZE. rewrite H1.
  assert (i < List.length bs)%nat by (apply nth_error_Some; congruence).
  replace (Nat.ltb _ _) with true by (symmetry; apply Nat.ltb_lt; lia).
  destruct (H3 _ _ E) as (w & Hw & Hb). unfold get_idx. rewrite Hw. cbn [obind].
  now rewrite land_pow2_test, Hb.
Qed.

Lemma nth_error_removelast {A} (l : list A) i : (S i < List.length l)%nat ->
  nth_error (removelast l) i = nth_error l i.
Proof.
  intro H. destruct l as [|x l] using rev_ind; [cbn in H; lia|].
  rewrite removelast_last. rewrite app_length in H. cbn in H.
  now rewrite nth_error_app1 by lia.
Qed.

Lemma repr_pop v bs : bv_repr v bs ->
  exists v', bv_pop v = Ok (match bs with [] => None | _ => Some (last bs false) end, v')
             /\ bv_repr v' (removelast bs).
Proof.
  intros H. assert (H' := H). destruct H' as (H1 & H2 & H3). unfold bv_pop.
  destruct bs as [|b0 bs0] using rev_ind.
  - rewrite H1. cbn. exists v. auto.
  - clear IHbs0. rewrite H1, app_length. cbn [List.length].
    replace (Nat.eqb 0 _) with false by (symmetry; apply Nat.eqb_neq; lia).
    replace (List.length bs0 + 1 - 1)%nat with (List.length bs0) by lia.
    rewrite (repr_get _ _ _ b0 H) by (apply nth_error_app_mid; reflexivity). cbn [obind].
    rewrite last_last, removelast_last. unfold WORD_SIZE.
    eexists. split; [destruct (bs0 ++ [b0]) eqn:E; [destruct bs0; discriminate|reflexivity]|].
    rewrite app_length in H2. cbn [List.length] in H2.
    split; [reflexivity|]. cbn [bv_bytes].
    destruct (Nat.eqb_spec (List.length bs0 mod 8) 0) as [E|E].
    + assert (HL : List.length (removelast (bv_bytes v)) = (List.length (bv_bytes v) - 1)%nat).
      { destruct (bv_bytes v) as [|x l] using rev_ind; [reflexivity|].
        rewrite removelast_last, app_length. cbn. lia. }
      split; [rewrite HL; lia|].
      intros i b Hi. assert (i < List.length bs0)%nat by (apply nth_error_Some; congruence).
      rewrite nth_error_removelast by lia.
      apply H3. now rewrite nth_error_app1 by lia.
    + split; [lia|]. intros i b Hi.
      assert (i < List.length bs0)%nat by (apply nth_error_Some; congruence).
      apply H3. now rewrite nth_error_app1 by lia.
Qed.

Lemma nth_error_upd {A} (l : list A) i j x :
  nth_error (upd l i x) j = if Nat.eqb i j then match nth_error l i with Some _ => Some x | None => None end
                            else nth_error l j.
Proof.
  revert i j. induction l as [|y l IH]; intros [|i] [|j]; cbn; try reflexivity.
  - now destruct (Nat.eqb i j).
  - apply IH.
Qed.
Lemma upd_length {A} (l : list A) i x : List.length (upd l i x) = List.length l.
Proof. revert i. induction l; intros [|i]; cbn; auto. Qed.

Lemma repr_push_true v bs : bv_repr v bs -> exists v', bv_push v true = Ok v' /\ bv_repr v' (bs ++ [true]).
Proof.
  intros (H1 & H2 & H3). unfold bv_push, WORD_SIZE. rewrite H1.
  set (n := List.length bs) in *.
  set (bytes' := if Nat.leb (List.length (bv_bytes v)) (n / 8) then bv_bytes v ++ [0] else bv_bytes v).
  assert (B : (if Nat.leb (List.length (bv_bytes v)) (n / 8)
             then if Nat.eqb (n / 8) (List.length (bv_bytes v))
                  then Ok (bv_bytes v ++ [0]) else Panic "assert_eq!(word, self.bytes.len())"
             else Ok (bv_bytes v)) = Ok bytes').
  { unfold bytes'. destruct (Nat.leb_spec (List.length (bv_bytes v)) (n / 8)); [|reflexivity].
    replace (Nat.eqb _ _) with true by (symmetry; apply Nat.eqb_eq; lia). reflexivity. }
  rewrite B. cbn [obind].
  assert (L : List.length bytes' = (n / 8 + 1)%nat).
  { unfold bytes'. destruct (Nat.leb_spec (List.length (bv_bytes v)) (n / 8)); [rewrite app_length; cbn [List.length]|]; lia. }
  assert (K : forall j w, nth_error (bv_bytes v) j = Some w -> nth_error bytes' j = Some w).
  { intros j w Hj. unfold bytes'. destruct (Nat.leb _ _); [|exact Hj].
    rewrite nth_error_app1; [exact Hj|]. apply nth_error_Some. congruence. }
  destruct (nth_error bytes' (n / 8)) as [w0|] eqn:E0;
    [|apply nth_error_None in E0; lia].
  unfold get_idx. rewrite E0. cbn [obind]. unfold set_idx.
  replace (Nat.ltb _ _) with true by (symmetry; apply Nat.ltb_lt; lia). cbn [obind].
  eexists. split; [reflexivity|]. unfold bv_repr. cbn [bv_len bv_bytes]. rewrite app_length. cbn [List.length].
  split; [lia|]. split; [rewrite upd_length; lia|].
  intros i b Hi. rewrite nth_error_upd.
  assert (Li : (i < n + 1)%nat).
  { replace (n + 1)%nat with (List.length (bs ++ [true])) by (rewrite app_length; reflexivity).
    apply nth_error_Some. congruence. }
  destruct (Nat.eq_dec i n) as [->|Hn].
  - rewrite Nat.eqb_refl, E0. eexists. split; [reflexivity|].
    rewrite (nth_error_app_mid bs true []) in Hi by reflexivity. inversion Hi; subst.
    rewrite N.lor_spec, N.shiftl_1_l, N.pow2_bits_true. apply orb_true_r.
  - rewrite nth_error_app1 in Hi by lia. destruct (H3 _ _ Hi) as (w & Hw & Hb).
    destruct (Nat.eqb_spec (n / 8) (i / 8)) as [E|E].
    + rewrite E0. eexists. split; [reflexivity|].
      apply K in Hw. rewrite <- E, E0 in Hw. inversion Hw; subst.
      rewrite N.lor_spec, N.shiftl_1_l, N.pow2_bits_false by lia. apply orb_false_r.
    + exists w. split; [now apply K|exact Hb].
Qed.

Lemma run_vec_ops_repr ops : Forall no_false ops -> forall v bs, bv_repr v bs ->
  exists v', run_vec_ops ops v = Ok (fst (list_vec_ops ops bs), v') /\ bv_repr v' (snd (list_vec_ops ops bs)).
Proof.
  induction ops as [|op ops IH]; intros H v bs HR.
  - exists v. auto.
  - inversion H; subst. destruct op as [b|].
    + cbn in H2. subst b. destruct (repr_push_true _ _ HR) as (v1 & E1 & R1).
      cbn [run_vec_ops list_vec_ops]. rewrite E1. cbn [obind]. now apply IH.
    + destruct (repr_pop _ _ HR) as (v1 & E1 & R1).
      cbn [run_vec_ops list_vec_ops]. rewrite E1. cbn [obind snd fst].
      destruct (IH H3 _ _ R1) as (v2 & E2 & R2). rewrite E2. cbn [obind fst snd]. eauto.
Qed.

Lemma repr_si_collect v bs n : bv_repr v bs -> forall i,
  (List.length bs - i < n)%nat -> (i <= List.length bs)%nat ->
  si_collect n (mkIter v i) = Ok (skipn i bs).
Proof.
  intro HR. assert (L := proj1 HR). induction n; intros i H1 H2; [lia|].
  cbn [si_collect]. unfold si_next. cbn [si_inner si_pos]. rewrite L.
  destruct (nth_error bs i) as [b|] eqn:E.
  - assert (i < List.length bs)%nat by (apply nth_error_Some; congruence).
    replace (Nat.leb _ _) with false by (symmetry; apply Nat.leb_gt; lia).
    rewrite (repr_get _ _ _ _ HR E). rewrite IHn by lia. cbn [obind].
    now rewrite (skipn_nth _ _ _ E).
  - apply nth_error_None in E. replace i with (List.length bs) by lia.
    rewrite Nat.leb_refl, Nat.eqb_refl. now rewrite skipn_all.
Qed.

Lemma run_vec_pushes bits ops v bs :
  run_vec_ops (map VPush bits ++ ops) (bitvec_of bs) = run_vec_ops ops (bitvec_of (bs ++ bits))
  /\ list_vec_ops (map VPush bits ++ ops) v = list_vec_ops ops (v ++ bits).
Proof.
  split.
  - revert bs. induction bits as [|b bits IH]; intro bs; cbn [map app run_vec_ops].
    + now rewrite app_nil_r.
    + rewrite bv_push_spec. cbn [obind]. rewrite IH, <- app_assoc. reflexivity.
  - revert v. induction bits as [|b bits IH]; intro v; cbn [map app list_vec_ops].
    + now rewrite app_nil_r.
    + rewrite IH, <- app_assoc. reflexivity.
Qed.
