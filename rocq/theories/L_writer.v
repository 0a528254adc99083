(** Lemmas: the bit writer appends bits. *)
From Verif Require Import Base M_bit M_lib Spec L_bits.
From Coq Require Import ZArith ZifyBool ZifyNat ZifyN.
Ltac Zify.zify_post_hook ::= Z.div_mod_to_equations.
Local Open Scope N_scope.
Local Open Scope model_scope.

Lemma bv_pop_byte_spec bs : List.length bs = 8%nat ->
  bv_pop_byte (bitvec_of bs) = Ok (Some (lsb_value bs), bitvec_of []).
Proof.
  intro H. destruct bs as [|b0 [|b1 [|b2 [|b3 [|b4 [|b5 [|b6 [|b7 [|]]]]]]]]]; try discriminate.
  destruct b0, b1, b2, b3, b4, b5, b6, b7; vm_compute; reflexivity.
Qed.

(** [w] has an unlimited sink and has been given exactly the bits [out]. *)
Definition wst (out : list bool) (w : bit_writer) : Prop :=
  room (bw_inner w) = None /\
  exists pend, bytes_ok (written (bw_inner w)) /\ bw_current w = bitvec_of pend
               /\ (List.length pend < 8)%nat /\ out = bits_of_bytes (written (bw_inner w)) ++ pend.

Definition writes (out : list bool) (m : M bit_writer unit) (bs : list bool) : Prop :=
  forall w, wst out w -> exists w', m w = (Ok tt, w') /\ wst (out ++ bs) w'.

Lemma writes_bind out m k bs1 bs2 :
  writes out m bs1 -> writes (out ++ bs1) k bs2 -> writes out (m ;;; k) (bs1 ++ bs2).
Proof.
  intros H1 H2 w Hw. destruct (H1 w Hw) as (w1 & E1 & W1).
  destruct (H2 w1 W1) as (w2 & E2 & W2). exists w2. unfold bind. rewrite E1, E2.
  now rewrite app_assoc.
Qed.

Lemma writes_ret out : writes out (ret tt) [].
Proof. intros w Hw. exists w. now rewrite app_nil_r. Qed.

Lemma writes_lift_ok {A} out (x : outcome A) a k bs :
  x = Ok a -> writes out (k a) bs -> writes out (bind (lift x) k) bs.
Proof. intros -> H w Hw. unfold bind, lift. now apply H. Qed.

Lemma writes_assert out b m k bs :
  b = true -> writes out k bs -> writes out (assert_ b m ;;; k) bs.
Proof. intros -> H w Hw. now apply H. Qed.

Lemma writes_ensure out b m k bs :
  b = true -> writes out k bs -> writes out (ensure b m ;;; k) bs.
Proof. intros -> H w Hw. now apply H. Qed.

Lemma wst_new : wst [] (bw_new new_sink).
Proof. split; [reflexivity|]. exists []. repeat split; try constructor; cbn; lia. Qed.

Lemma writes_bit out b : writes out (bw_write_bit b) [b].
Proof.
  intros [[wr rm] cur] (Hr & pend & Hok & Hc & Hp & Ho). cbn [bw_inner written room bw_current] in *. subst rm cur.
  unfold bw_write_bit, bind, bw_lift_current. cbn [bw_current bw_inner].
  rewrite bv_push_spec. cbn [obind bw_current].
  change (bv_len (bitvec_of (pend ++ [b]))) with (List.length (pend ++ [b])).
  rewrite app_length. cbn [List.length].
  destruct (Nat.eq_dec (List.length pend) 7) as [E|E].
  - rewrite E. cbn [Nat.leb Nat.eqb plus bw_current].
    rewrite bv_pop_byte_spec by (rewrite app_length; cbn; lia).
    cbn [bw_inner]. unfold bw_inner_write_all, zoom, write_all. cbn [bw_inner room written bw_current].
    eexists. split; [reflexivity|].
    split; [reflexivity|]. exists []. cbn [bw_inner written bw_current].
    assert (L8 : List.length (pend ++ [b]) = 8%nat) by (rewrite app_length; cbn; lia).
    repeat split.
    + apply Forall_app. split; [assumption|]. constructor; [|constructor].
      apply lsb_value_byte. lia.
    + cbn. lia.
    + rewrite bits_of_bytes_app, bits_of_bytes_cons. rewrite lsb_of_value_n by assumption.
      cbn [bits_of_bytes flat_map]. rewrite !app_nil_r. rewrite Ho, <- app_assoc. reflexivity.
  - replace (Nat.leb 8 _) with false by (symmetry; apply Nat.leb_gt; lia).
    eexists. split; [reflexivity|]. split; [reflexivity|].
    exists (pend ++ [b]). cbn [bw_inner written bw_current]. repeat split; auto.
    + rewrite app_length. cbn. lia.
    + rewrite Ho, <- app_assoc. reflexivity.
Qed.

Lemma writes_iter bs n : forall out i,
  (List.length bs - i < n)%nat -> (i <= List.length bs)%nat ->
  writes out (bw_write_iter n (mkIter (bitvec_of bs) i)) (skipn i bs).
Proof.
  induction n; intros out i H1 H2; [lia|].
  cbn [bw_write_iter]. rewrite si_next_spec by assumption.
  destruct (nth_error bs i) as [b|] eqn:E.
  - assert (i < List.length bs)%nat by (apply nth_error_Some; congruence).
    rewrite (skipn_nth _ _ _ E). apply (writes_bind out _ _ [b] (skipn (S i) bs)).
    + apply writes_bit.
    + apply IHn; lia.
  - apply nth_error_None in E. rewrite skipn_all2 by lia. apply writes_ret.
Qed.

Lemma writes_vec out bs : writes out (bw_write_vec (bitvec_of bs)) bs.
Proof.
  unfold bw_write_vec, bv_iter. change (bv_len (bitvec_of bs)) with (List.length bs).
  apply (writes_iter bs (S (List.length bs)) out 0); lia.
Qed.

Lemma writes_bits_val_loop n v : forall out i,
  (i + n <= 16)%nat ->
  writes out (bw_write_bits_val_loop (seq i n) v) (map (fun i => N.testbit v (N.of_nat i)) (seq i n)).
Proof.
  induction n; intros out i H; cbn [seq map bw_write_bits_val_loop].
  - apply writes_ret.
  - apply writes_assert; [apply Nat.ltb_lt; lia|].
    rewrite land_pow2_zero.
    apply (writes_bind out _ _ [N.testbit v (N.of_nat i)]).
    + apply writes_bit.
    + apply IHn. lia.
Qed.

Lemma writes_bits_val out n v : n <= 16 -> writes out (bw_write_bits_val n v) (lsb (N.to_nat n) v).
Proof. intro H. unfold bw_write_bits_val, lsb. apply writes_bits_val_loop. lia. Qed.

Lemma wst_mod out w : wst out w ->
  exists pend, bw_current w = bitvec_of pend /\ (List.length pend < 8)%nat
               /\ (List.length pend = List.length out mod 8)%nat.
Proof.
  intros (_ & pend & _ & Hc & Hp & Ho). exists pend. repeat split; auto.
  rewrite Ho, app_length, bits_of_bytes_length. lia.
Qed.

Lemma bv_is_empty_spec bs : bv_is_empty (bitvec_of bs) = Ok (Nat.eqb (List.length bs) 0).
Proof.
  unfold bv_is_empty. cbn [bv_len bv_bytes bitvec_of].
  destruct bs as [|b bs]; [reflexivity|].
  unfold bitvec_of. cbn [bv_bytes]. rewrite pack_step by discriminate. reflexivity.
Qed.

Lemma writes_align_loop n : forall out k,
  (k < n)%nat -> pads (List.length out) k -> writes out (bw_align_loop n) (repeat false k).
Proof.
  induction n; intros out k Hk [Hk8 Hp]; [lia|].
  intros w Hw. cbn [bw_align_loop]. destruct (wst_mod _ _ Hw) as (pend & Hc & Hl & Hm).
  unfold bind at 1. unfold bw_lift_current at 1. rewrite Hc, bv_is_empty_spec. cbn [obind].
  rewrite <- Hc. replace (mkWriter (bw_inner w) (bw_current w)) with w by now destruct w.
  destruct (Nat.eqb_spec (List.length pend) 0) as [E|E].
  - replace k with 0%nat by lia. exists w. cbn [repeat]. now rewrite app_nil_r.
  - destruct k as [|k]; [lia|]. cbn [repeat].
    refine (writes_bind out _ _ [false] (repeat false k) _ _ w Hw).
    + apply writes_bit.
    + apply IHn; [lia|]. rewrite app_length. cbn [List.length]. split; lia.
Qed.

Lemma writes_align out k : pads (List.length out) k -> writes out bw_align (repeat false k).
Proof. intro H. apply writes_align_loop; [destruct H; lia|assumption]. Qed.

Lemma writes_inner out bs : bytes_ok bs -> (List.length out mod 8 = 0)%nat ->
  writes out (bw_inner_write_all bs) (bits_of_bytes bs).
Proof.
  intros Hb Hm w Hw. destruct (wst_mod _ _ Hw) as (pend' & Hc' & Hl' & Hm').
  destruct w as [[wr rm] cur]. destruct Hw as (Hr & pend & Hok & Hc & Hp & Ho).
  cbn [bw_inner written room bw_current] in *. subst rm cur.
  assert (pend = []) as ->.
  { apply bitvec_of_inj in Hc'. subst pend'. destruct pend; [reflexivity|cbn in *; lia]. }
  unfold bw_inner_write_all, zoom, write_all. cbn [bw_inner room written bw_current].
  eexists. split; [reflexivity|]. split; [reflexivity|]. exists [].
  cbn [bw_inner written bw_current]. repeat split; auto.
  - now apply Forall_app.
  - rewrite bits_of_bytes_app, Ho, !app_nil_r. reflexivity.
Qed.

Lemma pads_exists out : exists k, pads out k.
Proof. exists ((8 - out mod 8) mod 8)%nat. split; lia. Qed.

Lemma pads_unique out k k' : pads out k -> pads out k' -> k = k'.
Proof. intros [] []. lia. Qed.

Lemma lxor_ffff v : v < 65536 -> N.lxor v 65535 = 65535 - v.
Proof.
  intro H. change 65535 with (N.ones 16).
  rewrite <- (N.lnot_sub_low v 16).
  - reflexivity.
  - destruct (N.eq_dec v 0) as [->|]; [cbn; lia|]. apply N.log2_lt_pow2; [lia|exact H].
Qed.

(** What [write_length_prefixed] emits: both 16-bit fields most significant byte first. *)
Definition be_bytes (v : N) : list N := [v / 256; v mod 256].

Lemma be_bytes_ok v : v < 65536 -> bytes_ok (be_bytes v).
Proof. intro H. repeat constructor; unfold is_byte; lia. Qed.

Lemma writes_length_prefixed out k data :
  pads (List.length out) k -> bytes_ok data -> N.of_nat (List.length data) < 65536 ->
  writes out (bw_write_length_prefixed data)
         (repeat false k ++ bits_of_bytes (be_bytes (N.of_nat (List.length data))
                                           ++ be_bytes (65535 - N.of_nat (List.length data)) ++ data)).
Proof.
  intros Hp Hd Hl. unfold bw_write_length_prefixed.
  apply writes_bind; [now apply writes_align|].
  assert (Hm : (List.length (out ++ repeat false k) mod 8 = 0)%nat).
  { rewrite app_length, repeat_length. now destruct Hp. }
  apply writes_ensure; [apply N.leb_le; lia|].
  set (len := N.of_nat (List.length data)) in *.
  rewrite lxor_ffff by assumption.
  assert (E : forall v, v < 65536 -> bw_write_aligned_u16 v = bw_inner_write_all (be_bytes v)).
  { intros v Hv. unfold bw_write_aligned_u16, be_bytes. do 2 f_equal.
    - rewrite N.shiftr_div_pow2. reflexivity.
    - f_equal. change 255 with (N.ones 8). rewrite N.land_ones. reflexivity. }
  rewrite !E by lia. rewrite !bits_of_bytes_app.
  apply writes_bind; [apply writes_inner; [now apply be_bytes_ok|assumption]|].
  apply writes_bind; [apply writes_inner; [apply be_bytes_ok; lia|]|].
  - rewrite app_length, bits_of_bytes_length. cbn [be_bytes List.length]. lia.
  - apply writes_inner; [assumption|].
    rewrite !app_length, !bits_of_bytes_length. rewrite app_length in Hm. cbn [be_bytes List.length]. lia.
Qed.

Lemma wst_into_inner out w : wst out w -> (List.length out mod 8 = 0)%nat ->
  exists s, bw_into_inner w = Ok s /\ bits_of_bytes (written s) = out /\ bytes_ok (written s).
Proof.
  intros Hw Hm. destruct (wst_mod _ _ Hw) as (pend' & Hc' & Hl' & Hm').
  destruct w as [[wr rm] cur]. destruct Hw as (Hr & pend & Hok & Hc & Hp & Ho).
  cbn [bw_inner written room bw_current] in *. subst rm cur.
  assert (pend = []) as ->.
  { apply bitvec_of_inj in Hc'. subst pend'. destruct pend; [reflexivity|cbn in *; lia]. }
  unfold bw_into_inner. cbn [bw_current bw_inner]. exists (mkSink wr None). rewrite Ho, app_nil_r.
  repeat split; auto.
Qed.
