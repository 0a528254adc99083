(** Lemmas: bits, bytes, packing, bit vectors and their iterator. *)
From Verif Require Import Base M_bit M_lib Spec.
From Coq Require Import ZArith ZifyBool ZifyNat ZifyN.
Ltac Zify.zify_post_hook ::= Z.div_mod_to_equations.
Local Open Scope N_scope.

(** Inversion that does not simplify. *)
Lemma ok_inj {A S} (a b : A) (s s' : S) : (Ok a, s) = (Ok b, s') -> a = b /\ s = s'.
Proof. intro H. inversion H. auto. Qed.

Lemma skipn_skipn {A} (x y : nat) (l : list A) : skipn x (skipn y l) = skipn (x + y) l.
Proof.
  revert x l. induction y; intros x l.
  - now rewrite Nat.add_0_r.
  - destruct l; [now rewrite !skipn_nil|]. rewrite Nat.add_succ_r. cbn [skipn]. apply IHy.
Qed.

Lemma lsb_length n v : List.length (lsb n v) = n.
Proof. unfold lsb. now rewrite map_length, seq_length. Qed.

Lemma lsb_S n v : lsb (S n) v = N.testbit v 0 :: lsb n (v / 2).
Proof.
  unfold lsb. cbn [seq map]. f_equal.
  rewrite <- seq_shift, map_map. apply map_ext. intro i.
  rewrite Nat2N.inj_succ, <- N.div2_div, N.div2_spec. rewrite N.shiftr_spec'. f_equal. lia.
Qed.

Lemma lsb_0 v : lsb 0 v = [].
Proof. reflexivity. Qed.

Lemma testbit0_value v : (if N.testbit v 0 then 1 else 0) = v mod 2.
Proof. rewrite <- N.bit0_mod. destruct (N.testbit v 0); reflexivity. Qed.

Lemma lsb_value_lsb n : forall v, lsb_value (lsb n v) = v mod 2 ^ N.of_nat n.
Proof.
  induction n; intro v.
  - cbn. now rewrite N.mod_1_r.
  - rewrite lsb_S. cbn [lsb_value]. rewrite IHn.
    rewrite Nat2N.inj_succ, N.pow_succ_r'.
    rewrite N.mod_mul_r by (try apply N.pow_nonzero; lia).
    assert (E : (if N.testbit v 0 then 1 else 0) = v mod 2).
    { rewrite <- N.bit0_mod. destruct (N.testbit v 0); reflexivity. }
    rewrite E. reflexivity.
Qed.

Lemma lsb_value_bound bs : lsb_value bs < 2 ^ N.of_nat (List.length bs).
Proof.
  induction bs as [|b bs IH]; cbn [lsb_value List.length].
  - reflexivity.
  - rewrite Nat2N.inj_succ, N.pow_succ_r'. destruct b; lia.
Qed.

Lemma lsb_of_value bs : lsb (List.length bs) (lsb_value bs) = bs.
Proof.
  induction bs as [|b bs IH]; [reflexivity|].
  cbn [List.length lsb_value]. rewrite lsb_S. f_equal.
  - destruct b.
    + replace (1 + 2 * lsb_value bs) with (2 * lsb_value bs + 1) by lia. apply N.testbit_odd_0.
    + replace (0 + 2 * lsb_value bs) with (2 * lsb_value bs) by lia. apply N.testbit_even_0.
  - replace (((if b then 1 else 0) + 2 * lsb_value bs) / 2) with (lsb_value bs); [exact IH|].
    destruct b; lia.
Qed.

Lemma lsb_of_value_n n bs : List.length bs = n -> lsb n (lsb_value bs) = bs.
Proof. intros <-. apply lsb_of_value. Qed.

Lemma lsb_value_inj a b :
  List.length a = List.length b -> lsb_value a = lsb_value b -> a = b.
Proof.
  intros L E. rewrite <- (lsb_of_value a), <- (lsb_of_value b), L, E. reflexivity.
Qed.

Lemma lsb_inj n a b : a < 2 ^ N.of_nat n -> b < 2 ^ N.of_nat n -> lsb n a = lsb n b -> a = b.
Proof.
  intros Ha Hb E.
  apply (f_equal lsb_value) in E. rewrite !lsb_value_lsb in E.
  now rewrite !N.mod_small in E by assumption.
Qed.

Lemma lsb_value_app a b :
  lsb_value (a ++ b) = lsb_value a + 2 ^ N.of_nat (List.length a) * lsb_value b.
Proof.
  induction a as [|x a IH]; cbn [app lsb_value List.length].
  - change (2 ^ N.of_nat 0) with 1. lia.
  - rewrite IH, Nat2N.inj_succ, N.pow_succ_r'. lia.
Qed.

Lemma testbit_lt v k : v < 2 ^ k -> N.testbit v k = false.
Proof.
  intro H. destruct (N.eq_dec v 0) as [->|Hv]; [apply N.bits_0|].
  apply N.bits_above_log2. apply N.log2_lt_pow2; lia.
Qed.

Lemma lor_pow2_add v k : v < 2 ^ k -> N.lor v (N.shiftl 1 k) = v + 2 ^ k.
Proof.
  intro H. rewrite N.shiftl_1_l.
  assert (E : N.land v (2 ^ k) = 0).
  { apply N.bits_inj. intro i. rewrite N.land_spec, N.bits_0, N.pow2_bits_eqb.
    destruct (N.eqb_spec k i) as [->|]; [|apply andb_false_r].
    rewrite testbit_lt by assumption. reflexivity. }
  rewrite <- N.lxor_lor by exact E. now rewrite <- N.add_nocarry_lxor by exact E.
Qed.

(** ** bits_of_bytes / pack *)

Lemma bits_of_bytes_length l : List.length (bits_of_bytes l) = (8 * List.length l)%nat.
Proof.
  induction l as [|x l IH]; [reflexivity|].
  cbn [bits_of_bytes flat_map List.length]. rewrite app_length, lsb_length.
  unfold bits_of_bytes in IH. lia.
Qed.

Lemma bits_of_bytes_app a b : bits_of_bytes (a ++ b) = bits_of_bytes a ++ bits_of_bytes b.
Proof. apply flat_map_app. Qed.

Lemma bits_of_bytes_cons x l : bits_of_bytes (x :: l) = lsb 8 x ++ bits_of_bytes l.
Proof. reflexivity. Qed.

Lemma pack_fuel_more f : forall bs g,
  (List.length bs <= 8 * f)%nat -> (List.length bs <= 8 * g)%nat -> pack_fuel f bs = pack_fuel g bs.
Proof.
  induction f; intros bs g Hf Hg.
  - destruct bs; [destruct g; reflexivity | cbn in Hf; lia].
  - destruct bs as [|b bs]; [destruct g; reflexivity|].
    destruct g; [cbn in Hg; lia|].
    cbn [pack_fuel]. f_equal. apply IHf.
    + rewrite skipn_length. cbn [List.length] in *. lia.
    + rewrite skipn_length. cbn [List.length] in *. lia.
Qed.

Lemma pack_nil : pack [] = [].
Proof. reflexivity. Qed.

Lemma pack_step bs : bs <> [] -> pack bs = lsb_value (firstn 8 bs) :: pack (skipn 8 bs).
Proof.
  intro H. unfold pack.
  transitivity (pack_fuel (S (List.length bs)) bs).
  - apply pack_fuel_more; lia.
  - destruct bs as [|b bs]; [congruence|]. cbn [pack_fuel]. f_equal.
    apply pack_fuel_more; rewrite skipn_length; cbn [List.length]; lia.
Qed.

Lemma pack_short bs : bs <> [] -> (List.length bs <= 8)%nat -> pack bs = [lsb_value bs].
Proof.
  intros H L. rewrite pack_step by assumption.
  rewrite firstn_all2, skipn_all2 by lia. reflexivity.
Qed.

Lemma pack_eight a bs : List.length a = 8%nat -> pack (a ++ bs) = lsb_value a :: pack bs.
Proof.
  intro H. rewrite pack_step by (destruct a; discriminate).
  rewrite firstn_app, skipn_app, H. cbn [Nat.sub].
  rewrite (firstn_all2 (n:=8) a), (skipn_all2 (n:=8) a) by lia.
  now rewrite app_nil_r.
Qed.

Lemma split8 (bs : list bool) :
  exists full part, bs = full ++ part /\ (List.length full mod 8 = 0)%nat /\ (List.length part < 8)%nat.
Proof.
  set (k := (8 * (List.length bs / 8))%nat).
  exists (firstn k bs), (skipn k bs). rewrite firstn_skipn, firstn_length, skipn_length.
  assert (k <= List.length bs)%nat by (unfold k; lia).
  rewrite Nat.min_l by assumption. unfold k. split; [reflexivity|]. split; lia.
Qed.

(** Induction on the number of whole bytes. *)
Lemma bytes_ind (P : list bool -> Prop) :
  P [] -> (forall a bs, List.length a = 8%nat -> (List.length bs mod 8 = 0)%nat -> P bs -> P (a ++ bs)) ->
  forall bs, (List.length bs mod 8 = 0)%nat -> P bs.
Proof.
  intros H0 HS bs. remember (List.length bs) as n eqn:E.
  revert bs E. induction n as [n IH] using lt_wf_ind. intros bs E H.
  destruct (Nat.eq_dec n 0).
  - destruct bs; [exact H0|cbn in E; lia].
  - rewrite <- (firstn_skipn 8 bs).
    assert (L1 : List.length (firstn 8 bs) = 8%nat) by (rewrite firstn_length; lia).
    assert (L2 : List.length (skipn 8 bs) = (n - 8)%nat) by (rewrite skipn_length; lia).
    apply HS; [exact L1|rewrite L2; lia|].
    apply (IH (n - 8)%nat); [lia|now rewrite L2|lia].
Qed.

Lemma pack_app full part :
  (List.length full mod 8 = 0)%nat -> pack (full ++ part) = pack full ++ pack part.
Proof.
  revert full. apply (bytes_ind (fun full => pack (full ++ part) = pack full ++ pack part)).
  - reflexivity.
  - intros a bs L _ IH. rewrite <- app_assoc, (pack_eight a (bs ++ part)), (pack_eight a bs), IH by assumption. reflexivity.
Qed.

Lemma pack_length bs : List.length (pack bs) = ((List.length bs + 7) / 8)%nat.
Proof.
  remember (List.length bs) as n eqn:E. revert bs E.
  induction n as [n IH] using lt_wf_ind. intros bs E.
  destruct bs as [|b bs]; [cbn in E; subst; reflexivity|].
  rewrite pack_step by discriminate. cbn [List.length].
  rewrite (IH (n - 8)%nat).
  - destruct (le_lt_dec 8 n) as [L|L].
    + replace (n + 7)%nat with ((n - 8 + 7) + 1 * 8)%nat by lia. rewrite Nat.div_add by lia. lia.
    + cbn [List.length] in E. replace (n - 8)%nat with 0%nat by lia.
      change ((0+7)/8)%nat with 0%nat. lia.
  - cbn in E. lia.
  - rewrite skipn_length. lia.
Qed.

Lemma pack_full_length bs : (List.length bs mod 8 = 0)%nat -> List.length (pack bs) = (List.length bs / 8)%nat.
Proof. intro H. rewrite pack_length. lia. Qed.

Lemma lsb_app_split n m v : lsb (n + m) v = lsb n v ++ lsb m (v / 2 ^ N.of_nat n).
Proof.
  revert v. induction n; intro v.
  - cbn [plus lsb_0 app]. change (2 ^ N.of_nat 0) with 1. now rewrite N.div_1_r.
  - cbn [plus]. rewrite !lsb_S. cbn [app]. f_equal. rewrite IHn. f_equal. f_equal.
    rewrite N.div_div by (try apply N.pow_nonzero; lia).
    rewrite Nat2N.inj_succ, N.pow_succ_r'. reflexivity.
Qed.

Lemma lsb_zero m : lsb m 0 = repeat false m.
Proof. induction m; [reflexivity|]. rewrite lsb_S. cbn [repeat]. now rewrite N.bits_0, N.div_0_l, IHm by lia. Qed.

Lemma lsb_value_pad bs m : lsb (List.length bs + m) (lsb_value bs) = bs ++ repeat false m.
Proof.
  rewrite lsb_app_split, lsb_of_value.
  rewrite N.div_small by apply lsb_value_bound. now rewrite lsb_zero.
Qed.

Lemma bits_of_pack_full bs : (List.length bs mod 8 = 0)%nat -> bits_of_bytes (pack bs) = bs.
Proof.
  revert bs. apply (bytes_ind (fun bs => bits_of_bytes (pack bs) = bs)).
  - reflexivity.
  - intros a bs L _ IH. rewrite pack_eight by assumption. rewrite bits_of_bytes_cons, IH.
    now rewrite lsb_of_value_n.
Qed.

Lemma pack_bits_of_bytes l : bytes_ok l -> pack (bits_of_bytes l) = l.
Proof.
  induction l as [|x l IH]; intro H; [reflexivity|].
  inversion H; subst. rewrite bits_of_bytes_cons, pack_eight by apply lsb_length.
  rewrite lsb_value_lsb, IH by assumption. f_equal.
  apply N.mod_small. exact H2.
Qed.

Lemma lsb_value_byte bs : (List.length bs <= 8)%nat -> is_byte (lsb_value bs).
Proof.
  intro L. unfold is_byte. eapply N.lt_le_trans; [apply lsb_value_bound|].
  change 256 with (2 ^ 8). apply N.pow_le_mono_r; lia.
Qed.

Lemma pack_bytes_ok bs : bytes_ok (pack bs).
Proof.
  remember (List.length bs) as n eqn:E. revert bs E.
  induction n as [n IH] using lt_wf_ind. intros bs E.
  destruct bs as [|b bs]; [constructor|].
  rewrite pack_step by discriminate. constructor.
  - apply lsb_value_byte. rewrite firstn_length. lia.
  - apply (IH (n - 8)%nat); [cbn in E; lia|]. rewrite skipn_length. lia.
Qed.

Lemma bits_of_bytes_inj a b : bytes_ok a -> bytes_ok b -> bits_of_bytes a = bits_of_bytes b -> a = b.
Proof.
  intros Ha Hb E. rewrite <- (pack_bits_of_bytes a), <- (pack_bits_of_bytes b), E by assumption. reflexivity.
Qed.

Lemma bits_of_bytes_app_inv l w : forall t,
  bits_of_bytes l = w ++ bits_of_bytes t ->
  (List.length w mod 8 = 0)%nat /\
  bits_of_bytes (firstn (List.length w / 8) l) = w /\
  bits_of_bytes (skipn (List.length w / 8) l) = bits_of_bytes t.
Proof.
  intros t E.
  assert (L := f_equal (@List.length _) E). rewrite app_length, !bits_of_bytes_length in L.
  assert (M : (List.length w mod 8 = 0)%nat) by lia. split; [exact M|].
  rewrite <- (firstn_skipn (List.length w / 8) l), bits_of_bytes_app in E.
  assert (LL : List.length (bits_of_bytes (firstn (List.length w / 8) l)) = List.length w).
  { rewrite bits_of_bytes_length, firstn_length. lia. }
  assert (K : forall (a b c d : list bool), List.length a = List.length c -> a ++ b = c ++ d -> a = c /\ b = d).
  { induction a as [|x a IHa]; intros b [|y c] d HL HE; cbn in *; try discriminate; auto.
    inversion HE; subst. destruct (IHa b c d) as [-> ->]; auto. }
  apply K in E; [exact E|exact LL].
Qed.

Lemma app_eq_len {A} (a b c d : list A) :
  List.length a = List.length c -> a ++ b = c ++ d -> a = c /\ b = d.
Proof.
  revert c. induction a as [|x a IHa]; intros [|y c] HL HE; cbn in *; try discriminate; auto.
  inversion HE; subst. destruct (IHa c) as [-> ->]; auto.
Qed.

(** ** Bit vectors *)

Lemma upd_app_r {A} (a : list A) x b i y :
  i = List.length a -> upd (a ++ x :: b) i y = a ++ y :: b.
Proof. intros ->. induction a; cbn; congruence. Qed.

Lemma nth_error_app_mid {A} (a : list A) x b i :
  i = List.length a -> nth_error (a ++ x :: b) i = Some x.
Proof. intros ->. rewrite nth_error_app2 by lia. now rewrite Nat.sub_diag. Qed.

Lemma bv_push_spec bs b : bv_push (bitvec_of bs) b = Ok (bitvec_of (bs ++ [b])).
Proof.
  destruct (split8 bs) as (full & part & -> & Hf & Hp).
  unfold bv_push, bitvec_of, WORD_SIZE. cbn [bv_bytes bv_len].
  rewrite <- app_assoc. rewrite !pack_app by assumption.
  rewrite (app_length full part).
  assert (Hw : ((List.length full + List.length part) / 8 = List.length (pack full))%nat).
  { rewrite pack_full_length by assumption. lia. }
  assert (Hb : ((List.length full + List.length part) mod 8 = List.length part)%nat) by lia.
  rewrite Hw, Hb.
  replace (List.length (full ++ part ++ [b])) with (S (List.length full + List.length part))
    by (rewrite !app_length; cbn; lia).
  destruct part as [|p part].
  - rewrite pack_nil, app_nil_r. rewrite Nat.leb_refl, Nat.eqb_refl. cbn [obind app].
    rewrite (pack_short [b]) by (cbn; (discriminate || lia)).
    destruct b.
    + unfold get_idx. rewrite nth_error_app_mid by reflexivity. cbn [obind].
      unfold set_idx. rewrite app_length. cbn [List.length].
      replace (Nat.ltb _ _) with true by (symmetry; apply Nat.ltb_lt; lia). cbn [obind].
      rewrite upd_app_r by reflexivity. reflexivity.
    + reflexivity.
  - rewrite (pack_short (p :: part)) by (cbn in *; (discriminate || lia)).
    rewrite (pack_short ((p :: part) ++ [b])) by (try rewrite app_length; cbn in *; (discriminate || lia)).
    rewrite app_length. cbn [List.length].
    replace (Nat.leb _ _) with false by (symmetry; apply Nat.leb_gt; lia). cbn [obind].
    rewrite lsb_value_app. cbn [List.length].
    destruct b.
    + unfold get_idx. rewrite nth_error_app_mid by reflexivity. cbn [obind].
      unfold set_idx. rewrite app_length. cbn [List.length].
      replace (Nat.ltb _ _) with true by (symmetry; apply Nat.ltb_lt; lia). cbn [obind].
      rewrite upd_app_r by reflexivity.
      rewrite lor_pow2_add by (apply (lsb_value_bound (p :: part))).
      cbn [lsb_value]. do 4 f_equal. lia.
    + cbn [obind]. do 4 f_equal. cbn [lsb_value]. lia.
Qed.

Lemma bv_new_spec : bv_new = bitvec_of [].
Proof. reflexivity. Qed.

Lemma lsb_nth n v i : (i < n)%nat -> nth_error (lsb n v) i = Some (N.testbit v (N.of_nat i)).
Proof.
  intro H. unfold lsb. rewrite nth_error_map.
  rewrite nth_error_nth' with (d := 0%nat) by (rewrite seq_length; lia).
  now rewrite seq_nth by lia.
Qed.

Lemma land_pow2_test w k : (N.land w (N.shiftl 1 k) =? N.shiftl 1 k) = N.testbit w k.
Proof.
  rewrite N.shiftl_1_l. destruct (N.testbit w k) eqn:E.
  - apply N.eqb_eq. apply N.bits_inj. intro i. rewrite N.land_spec, N.pow2_bits_eqb.
    destruct (N.eqb_spec k i) as [->|]; [now rewrite E|apply andb_false_r].
  - apply N.eqb_neq. intro H. apply (f_equal (fun x => N.testbit x k)) in H.
    rewrite N.land_spec, E, N.pow2_bits_true in H. discriminate.
Qed.

Lemma land_pow2_zero w k : negb (N.land w (N.shiftl 1 k) =? 0) = N.testbit w k.
Proof.
  rewrite N.shiftl_1_l. destruct (N.testbit w k) eqn:E.
  - replace (_ =? _) with false; [reflexivity|]. symmetry. apply N.eqb_neq. intro H.
    apply (f_equal (fun x => N.testbit x k)) in H.
    rewrite N.land_spec, E, N.pow2_bits_true, N.bits_0 in H. discriminate.
  - replace (_ =? _) with true; [reflexivity|]. symmetry. apply N.eqb_eq.
    apply N.bits_inj. intro i. rewrite N.land_spec, N.pow2_bits_eqb, N.bits_0.
    destruct (N.eqb_spec k i) as [->|]; [now rewrite E|apply andb_false_r].
Qed.

Lemma pack_nth bs i b :
  nth_error bs i = Some b ->
  exists w, nth_error (pack bs) (i / 8) = Some w /\ N.testbit w (N.of_nat (i mod 8)) = b.
Proof.
  remember (List.length bs) as n eqn:E. revert bs i E.
  induction n as [n IH] using lt_wf_ind. intros bs i E H.
  assert (Hi : (i < List.length bs)%nat) by (apply nth_error_Some; congruence).
  assert (Hne : bs <> []) by (destruct bs; [cbn in Hi; lia|discriminate]).
  rewrite pack_step by assumption.
  destruct (le_lt_dec 8 i) as [L|L].
  - replace (i / 8)%nat with (S ((i - 8) / 8)) by lia.
    replace (i mod 8)%nat with ((i - 8) mod 8)%nat by lia.
    cbn [nth_error]. apply (IH (n - 8)%nat).
    + lia.
    + rewrite skipn_length. lia.
    + rewrite <- H. rewrite <- (firstn_skipn 8 bs) at 2.
      rewrite nth_error_app2; rewrite firstn_length; [f_equal|]; lia.
  - rewrite Nat.div_small, Nat.mod_small by lia. cbn [nth_error]. eexists; split; [reflexivity|].
    assert (Hf : nth_error (firstn 8 bs) i = Some b).
    { rewrite <- H. rewrite <- (firstn_skipn 8 bs) at 2. symmetry.
      apply nth_error_app1. rewrite firstn_length. lia. }
    assert (Hl : (i < List.length (firstn 8 bs))%nat) by (rewrite firstn_length; lia).
    rewrite <- (lsb_of_value (firstn 8 bs)) in Hf. rewrite lsb_nth in Hf by assumption.
    congruence.
Qed.

Lemma bv_get_spec bs i b : nth_error bs i = Some b -> bv_get (bitvec_of bs) i = Ok b.
Proof.
  intro H. unfold bv_get, bitvec_of, WORD_SIZE. cbn [bv_len bv_bytes].
  assert (i < List.length bs)%nat by (apply nth_error_Some; congruence).
  replace (Nat.ltb _ _) with true by (symmetry; apply Nat.ltb_lt; lia).
  destruct (pack_nth _ _ _ H) as (w & Hw & Hb).
  unfold get_idx. rewrite Hw. cbn [obind]. now rewrite land_pow2_test, Hb.
Qed.

Lemma bv_from_slice_spec l : bytes_ok l -> bv_from_slice l = bitvec_of (bits_of_bytes l).
Proof.
  intro H. unfold bv_from_slice, bitvec_of, WORD_SIZE.
  rewrite pack_bits_of_bytes by assumption. rewrite bits_of_bytes_length. f_equal. lia.
Qed.

Lemma si_next_spec bs i :
  (i <= List.length bs)%nat ->
  si_next (mkIter (bitvec_of bs) i)
  = match nth_error bs i with
    | Some b => (Ok (Some b), mkIter (bitvec_of bs) (S i))
    | None => (Ok None, mkIter (bitvec_of bs) i)
    end.
Proof.
  intro H. unfold si_next. cbn [si_inner si_pos]. 
  change (bv_len (bitvec_of bs)) with (List.length bs).
  destruct (nth_error bs i) as [b|] eqn:E.
  - assert (i < List.length bs)%nat by (apply nth_error_Some; congruence).
    replace (Nat.leb _ _) with false by (symmetry; apply Nat.leb_gt; lia).
    now rewrite (bv_get_spec _ _ _ E).
  - apply nth_error_None in E. replace i with (List.length bs) by lia.
    now rewrite Nat.leb_refl, Nat.eqb_refl.
Qed.

Lemma skipn_nth {A} (l : list A) i b : nth_error l i = Some b -> skipn i l = b :: skipn (S i) l.
Proof.
  revert i. induction l as [|x l IH]; intros [|i] H; cbn in *; try discriminate.
  - congruence.
  - now apply IH.
Qed.

Lemma si_collect_spec bs n : forall i,
  (List.length bs - i < n)%nat -> (i <= List.length bs)%nat ->
  si_collect n (mkIter (bitvec_of bs) i) = Ok (skipn i bs).
Proof.
  induction n; intros i H1 H2; [lia|].
  cbn [si_collect]. rewrite si_next_spec by assumption.
  destruct (nth_error bs i) as [b|] eqn:E.
  - assert (i < List.length bs)%nat by (apply nth_error_Some; congruence).
    rewrite IHn by lia. cbn [obind]. now rewrite (skipn_nth _ _ _ E).
  - apply nth_error_None in E. now rewrite skipn_all2 by lia.
Qed.

Lemma bv_to_list_spec bs : bv_to_list (bitvec_of bs) = Ok bs.
Proof.
  unfold bv_to_list, bv_iter. change (bv_len (bitvec_of bs)) with (List.length bs).
  rewrite si_collect_spec by lia. reflexivity.
Qed.

Lemma bitvec_of_inj a b : bitvec_of a = bitvec_of b -> a = b.
Proof.
  intro E. assert (H := bv_to_list_spec a). rewrite E, bv_to_list_spec in H. congruence.
Qed.
