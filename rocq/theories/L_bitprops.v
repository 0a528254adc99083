(** Lemmas behind the bit-level properties. *)
From Verif Require Import Base M_bit M_lib M_parse Spec Clients L_bits L_writer L_reader.
From Coq Require Import ZArith ZifyBool ZifyNat ZifyN.
Ltac Zify.zify_post_hook ::= Z.div_mod_to_equations.
Local Open Scope N_scope.
Local Open Scope model_scope.

Lemma writes_write_bits bits : forall out, writes out (write_bits bits) bits.
Proof.
  induction bits as [|b bits IH]; intro out; cbn [write_bits]; [apply writes_ret|].
  apply (writes_bind out _ _ [b] bits); [apply writes_bit|apply IH].
Qed.

Lemma push_all_spec bits : forall bs, push_all bits (bitvec_of bs) = Ok (bitvec_of (bs ++ bits)).
Proof.
  induction bits as [|b bits IH]; intro bs; cbn [push_all]; [now rewrite app_nil_r|].
  rewrite bv_push_spec. cbn [obind]. rewrite IH, <- app_assoc. reflexivity.
Qed.

Lemma push_all_new bits : push_all bits bv_new = Ok (bitvec_of bits).
Proof. apply (push_all_spec bits []). Qed.

Lemma pads_formula n : pads n ((8 - n mod 8) mod 8).
Proof. split; lia. Qed.

Lemma writes_op op out : write_op_ok op ->
  exists bs, after_write_op out op = out ++ bs /\ writes out (run_write_op op) bs.
Proof.
  intro H. destruct op; cbn [after_write_op run_write_op]; eexists; (split; [reflexivity|]).
  - apply writes_bit.
  - now apply writes_bits_val.
  - eapply writes_lift_ok; [apply push_all_new|]. apply writes_vec.
  - apply writes_align. apply pads_formula.
Qed.

Lemma run_write_ops_spec ops : Forall write_op_ok ops -> forall out w, wst out w ->
  exists w', run_write_ops ops w = (Ok tt, w') /\ wst (fold_left after_write_op ops out) w'.
Proof.
  induction ops as [|op ops IH]; intros H out w Hw.
  - exists w. auto.
  - inversion H; subst. destruct (writes_op op out H2) as (bs & E & W).
    destruct (W w Hw) as (w1 & E1 & W1). cbn [run_write_ops fold_left]. rewrite E.
    destruct (IH H3 _ _ W1) as (w2 & E2 & W2). exists w2. unfold bind. rewrite E1. auto.
Qed.

(** ** Reader *)
Definition take_bits (k : eofk) : nat -> M (list bool) (list bool) :=
  fix go n := match n with
              | O => ret []
              | S n' => b <- rbl k ;; l <- go n' ;; ret (b :: l)
              end.

Lemma sim_read_bits e n : sim (Rbr e) (take_bits (EofErr (EIo e)) n) (read_bits n).
Proof.
  induction n; cbn [take_bits read_bits]; auto with sim.
  apply sim_bind; [apply sim_br_read_bit|]. intro b. apply sim_bind; auto with sim.
Qed.

Lemma take_bits_spec k n : forall bs,
  take_bits k n bs = if Nat.leb n (List.length bs) then (Ok (firstn n bs), skipn n bs)
                     else (eof_out k, []).
Proof.
  induction n; intro bs; [reflexivity|].
  cbn [take_bits]. fold (take_bits k). unfold bind. destruct bs as [|b bs].
  - destruct k; reflexivity.
  - cbn [rbl]. rewrite IHn. cbn [List.length Nat.leb firstn skipn].
    destruct (Nat.leb n (List.length bs)); [reflexivity|destruct k; reflexivity].
Qed.

Lemma read_bits_spec e n bs r : Rbr e bs r ->
  (n <= List.length bs)%nat ->
  exists r', read_bits n r = (Ok (firstn n bs), r') /\ Rbr e (skipn n bs) r'.
Proof.
  intros HR Hn. destruct (sim_read_bits e n bs r HR) as (r' & E & R').
  rewrite take_bits_spec in *. replace (Nat.leb _ _) with true in * by (symmetry; apply Nat.leb_le; lia).
  exists r'. auto.
Qed.

Lemma read_bits_ok e n bs r l r' : Rbr e bs r -> read_bits n r = (Ok l, r') ->
  (n <= List.length bs)%nat /\ l = firstn n bs /\ Rbr e (skipn n bs) r'.
Proof.
  intros HR E0. destruct (sim_read_bits e n bs r HR) as (r1 & E & R').
  rewrite take_bits_spec in *. destruct (Nat.leb_spec n (List.length bs)); cbn [fst snd] in *.
  - rewrite E in E0. inversion E0; subst. auto.
  - rewrite E in E0. discriminate.
Qed.

(** [n] more bits leave exactly the bytes after the last one touched. *)
Lemma Rbr_inner_length e bs r : Rbr e bs r ->
  List.length (rest (br_inner r)) = (List.length bs / 8)%nat.
Proof.
  intro H. rewrite (Rbr_length _ _ _ H). unfold br_bits_left. destruct H. lia.
Qed.

Lemma Rbr_split e bs r : Rbr e bs r ->
  exists p, bs = p ++ bits_of_bytes (rest (br_inner r)) /\ List.length p = (List.length bs mod 8)%nat.
Proof.
  intros H. assert (HL := Rbr_length _ _ _ H). destruct H as (H1 & H2 & H3 & H4 & H5).
  eexists. split; [exact H5|]. rewrite skipn_length, lsb_length, HL. unfold br_bits_left. lia.
Qed.

Lemma Rbr_rest_skip e l bs r n : bytes_ok l -> bits_of_bytes l = bs -> Rbr e (skipn n bs) r -> 
  (n <= List.length bs)%nat ->
  rest (br_inner r) = skipn ((n + 7) / 8) l.
Proof.
  intros Hl Hb HR Hn. assert (Hok : bytes_ok (rest (br_inner r))) by apply HR.
  destruct (Rbr_split _ _ _ HR) as (p & Ep & Lp).
  apply bits_of_bytes_inj; [exact Hok| |].
  { clear - Hl. revert l Hl. induction ((n+7)/8)%nat as [|m IH]; intros l Hl; [exact Hl|].
    destruct l; [constructor|]. inversion Hl; subst. cbn [skipn]. auto. }
  assert (LL : List.length bs = (8 * List.length l)%nat) by (subst bs; apply bits_of_bytes_length).
  assert (E : bs = (firstn n bs ++ p) ++ bits_of_bytes (rest (br_inner r))).
  { rewrite <- app_assoc, <- Ep. now rewrite firstn_skipn. }
  rewrite <- Hb in E at 1. apply bits_of_bytes_app_inv in E. destruct E as (_ & _ & E3).
  rewrite <- E3. f_equal. f_equal. rewrite app_length, firstn_length, Lp, skipn_length. lia.
Qed.

(** ** read_part *)
Lemma read_part_loop_spec k n : forall i res bs,
  (n <= List.length bs)%nat -> res < 2 ^ N.of_nat i ->
  read_part_loop (rbl k) (seq i n) res bs
  = (Ok (res + 2 ^ N.of_nat i * lsb_value (firstn n bs)), skipn n bs).
Proof.
  induction n; intros i res bs H Hr.
  - cbn [seq read_part_loop firstn skipn lsb_value]. unfold ret. do 2 f_equal. lia.
  - destruct bs as [|b bs]; [cbn in H; lia|]. cbn [List.length] in H.
    cbn [seq read_part_loop firstn skipn lsb_value]. unfold bind. cbn [rbl].
    rewrite IHn.
    + do 2 f_equal. rewrite Nat2N.inj_succ, N.pow_succ_r'. destruct b.
      * rewrite lor_pow2_add by assumption. lia.
      * lia.
    + lia.
    + rewrite Nat2N.inj_succ, N.pow_succ_r'. destruct b.
      * rewrite lor_pow2_add by assumption. lia.
      * lia.
Qed.

Lemma read_part_loop_short k n : forall i res bs,
  (List.length bs < n)%nat -> read_part_loop (rbl k) (seq i n) res bs = (eof_out k, []).
Proof.
  induction n; intros i res bs H; [lia|].
  cbn [seq read_part_loop]. unfold bind. destruct bs as [|b bs].
  - destruct k; reflexivity.
  - cbn [rbl]. apply IHn. cbn in H. lia.
Qed.

Lemma read_part_spec k n bs : n <= 16 ->
  read_part (rbl k) n bs
  = if Nat.leb (N.to_nat n) (List.length bs)
    then (Ok (lsb_value (firstn (N.to_nat n) bs)), skipn (N.to_nat n) bs)
    else (eof_out k, []).
Proof.
  intro Hn. unfold read_part. replace (n <=? 16) with true by (symmetry; apply N.leb_le; lia).
  unfold assert_, bind, ret.
  destruct (Nat.leb_spec (N.to_nat n) (List.length bs)).
  - rewrite read_part_loop_spec; [|lia|cbn; lia]. do 2 f_equal.
    change (2 ^ N.of_nat 0) with 1. lia.
  - apply read_part_loop_short. lia.
Qed.

Lemma br_read_part_spec e n bs r : n <= 16 -> Rbr e bs r ->
  exists r', br_read_part n r
    = (if Nat.leb (N.to_nat n) (List.length bs)
       then Ok (lsb_value (firstn (N.to_nat n) bs)) else Err (EIo e), r')
    /\ Rbr e (if Nat.leb (N.to_nat n) (List.length bs) then skipn (N.to_nat n) bs else []) r'.
Proof.
  intros Hn HR. destruct (sim_read_part _ _ _ (sim_br_read_bit e) n bs r HR) as (r' & E & R').
  exists r'. unfold br_read_part. rewrite E. rewrite read_part_spec in * by assumption.
  destruct (Nat.leb (N.to_nat n) (List.length bs)); cbn [fst snd eof_out] in *; auto.
Qed.

(** ** align *)
Lemma br_position_spec e bs r : Rbr e bs r ->
  br_position r = (Ok (N.of_nat ((8 - List.length bs mod 8) mod 8)), r).
Proof.
  intro HR. assert (Hr := Rbr_rem _ _ _ HR). unfold br_position. rewrite Hr.
  replace (N.of_nat _ <=? 7) with true by (symmetry; apply N.leb_le; lia).
  do 2 f_equal. lia.
Qed.

Lemma Rbr_untracked e bs r : Rbr e bs r -> br_assert_untracked r = (Ok tt, r).
Proof. intros (_ & H & _). unfold br_assert_untracked. now rewrite H. Qed.

(** [align] on bits. *)
Fixpoint lb_align_loop (k : eofk) (fuel : nat) : M (list bool) unit :=
  match fuel with
  | O => lift Diverge
  | S fuel' =>
      fun bs => if Nat.eqb (List.length bs mod 8) 0 then (Ok tt, bs)
                else (b <- rbl k ;;
                      ensure (negb b) "padding bits should always be empty" ;;;
                      lb_align_loop k fuel') bs
  end.

Lemma sim_br_align_loop e n : sim (Rbr e) (lb_align_loop (EofErr (EIo e)) n) (br_align_loop n).
Proof.
  induction n; cbn [lb_align_loop br_align_loop]; auto with sim.
  intros bs r HR. unfold bind at 1. rewrite (br_position_spec _ _ _ HR).
  destruct (Nat.eqb_spec (List.length bs mod 8) 0) as [E|E].
  - rewrite E. cbn. exists r. auto.
  - replace (0 =? N.of_nat _) with false by (symmetry; apply N.eqb_neq; lia).
    revert bs r HR E. 
    intros bs r HR _.
    assert (S1 : sim (Rbr e) (b <- rbl (EofErr (EIo e)) ;;
                      ensure (negb b) "padding bits should always be empty" ;;;
                      lb_align_loop (EofErr (EIo e)) n)
                     (b <- br_read_bit ;;
                      ensure (negb b) "padding bits should always be empty" ;;;
                      br_align_loop n)).
    { apply sim_bind; [apply sim_br_read_bit|]. intro. apply sim_bind; auto with sim. }
    apply S1. exact HR.
Qed.

Lemma lb_align_loop_spec k n : forall bs,
  (List.length bs mod 8 < n)%nat ->
  let p := firstn (List.length bs mod 8) bs in
  (p = repeat false (List.length p) -> lb_align_loop k n bs = (Ok tt, skipn (List.length bs mod 8) bs)) /\
  (p <> repeat false (List.length p) ->
   exists bs', lb_align_loop k n bs = (Err (EMsg "padding bits should always be empty"), bs')
               /\ (List.length bs' / 8 = List.length bs / 8)%nat).
Proof.
  induction n; intros bs H; [lia|].
  cbn [lb_align_loop].
  destruct (Nat.eqb_spec (List.length bs mod 8) 0) as [E|E].
  - rewrite E. cbn [firstn List.length repeat skipn]. split; [reflexivity|congruence].
  - destruct bs as [|b bs]; [cbn in E; lia|].
    unfold bind. cbn [rbl]. cbn [List.length] in H, E.
    assert (L : (List.length (b :: bs) mod 8 = S (List.length bs mod 8))%nat) by (cbn [List.length]; lia).
    rewrite L. cbn [firstn List.length skipn repeat].
    assert (LF : List.length (firstn (List.length bs mod 8) bs) = (List.length bs mod 8)%nat)
      by (rewrite firstn_length; lia).
    destruct b.
    + cbn [negb ensure]. split; [discriminate|]. intros _. eexists. split; [reflexivity|].
      lia.
    + cbn [negb ensure ret]. destruct (IHn bs) as [I1 I2]; [lia|]. split.
      * intro Hp. apply I1. congruence.
      * intro Hp. destruct I2 as (bs' & E' & LE).
        { intro. apply Hp. congruence. }
        exists bs'. split; [exact E'|]. lia.
Qed.

Lemma br_align_spec e bs r : Rbr e bs r ->
  let p := firstn (List.length bs mod 8) bs in
  (p = repeat false (List.length p) ->
    exists r', br_align r = (Ok tt, r') /\ Rbr e (skipn (List.length bs mod 8) bs) r') /\
  (p <> repeat false (List.length p) ->
    exists bs' r', br_align r = (Err (EMsg "padding bits should always be empty"), r') /\ Rbr e bs' r'
      /\ (List.length bs' / 8 = List.length bs / 8)%nat).
Proof.
  intros HR p.
  destruct (lb_align_loop_spec (EofErr (EIo e)) 9 bs) as [I1 I2]; [lia|]. fold p in I1, I2.
  destruct (sim_br_align_loop e 9 bs r HR) as (r' & E & R').
  assert (EA : br_align r = br_align_loop 9 r).
  { unfold br_align, bind at 1. now rewrite (Rbr_untracked _ _ _ HR). }
  rewrite EA. split; intro Hp.
  - rewrite (I1 Hp) in E, R'. cbn [fst snd] in *. exists r'. now split.
  - destruct (I2 Hp) as (bs' & E' & LE). rewrite E' in E, R'. cbn [fst snd] in *. exists bs', r'. split; [exact E|]. split; [exact R'|exact LE].
Qed.
