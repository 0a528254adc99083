(** Lemmas: readers as states after [n] bit reads; absence of panics. *)
From Verif Require Import Base M_bit M_lib M_code_tree M_huffman M_parse Spec Clients L_bits L_reader L_bitprops L_stored L_tree L_huff L_header.
From Coq Require Import ZArith ZifyBool ZifyNat ZifyN.
Ltac Zify.zify_post_hook ::= Z.div_mod_to_equations.
Local Open Scope N_scope.
Local Open Scope model_scope.

(** ** Reader states by bit offset *)
Definition Rat (bytes : list N) (e : errkind) (bs : list bool) (r : bit_reader) : Prop :=
  exists off, at_bit bytes e off r /\ (off <= 8 * List.length bytes)%nat
              /\ bs = skipn off (bits_of_bytes bytes).

Lemma at_bit_Rbr bytes e off r : bytes_ok bytes -> at_bit bytes e off r ->
  (off <= 8 * List.length bytes)%nat /\ Rbr e (skipn off (bits_of_bytes bytes)) r.
Proof.
  intros HB (l & E). assert (R0 := Rbr_new (mkSource bytes e) HB). cbn [rest at_end] in R0.
  destruct (read_bits_ok _ _ _ _ _ _ R0 E) as (H1 & _ & H2). rewrite bits_of_bytes_length in H1. auto.
Qed.

Lemma Rat_off bytes e bs r off : Rat bytes e bs r -> at_bit bytes e off r -> bytes_ok bytes ->
  bs = skipn off (bits_of_bytes bytes).
Proof.
  intros (off' & HA & HO & ->) HA' HB.
  destruct (at_bit_Rbr _ _ _ _ HB HA) as [O1 R1]. destruct (at_bit_Rbr _ _ _ _ HB HA') as [O2 R2].
  assert (L1 := Rbr_length _ _ _ R1). assert (L2 := Rbr_length _ _ _ R2).
  rewrite skipn_length, bits_of_bytes_length in L1, L2. assert (off = off') by lia. now subst.
Qed.

Lemma at_bit_Rat bytes e off r : bytes_ok bytes -> at_bit bytes e off r ->
  Rat bytes e (skipn off (bits_of_bytes bytes)) r.
Proof. intros HB HA. exists off. destruct (at_bit_Rbr _ _ _ _ HB HA). auto. Qed.

Lemma read_bits_snoc n : forall r0 l r b r', read_bits n r0 = (Ok l, r) -> br_read_bit r = (Ok b, r') ->
  read_bits (S n) r0 = (Ok (l ++ [b]), r').
Proof.
  induction n; intros r0 l r b r' E1 E2.
  - cbn [read_bits] in *. apply ok_inj in E1. destruct E1 as [<- <-]. unfold bind, ret. now rewrite E2.
  - cbn [read_bits] in E1. apply bind_inv in E1. destruct E1 as (b1 & r1 & E1 & E3).
    apply bind_inv in E3. destruct E3 as (l1 & r2 & E3 & E4). apply ok_inj in E4. destruct E4 as [<- <-].
    assert (I := IHn _ _ _ _ _ E3 E2).
    change (read_bits (S (S n))) with (b <- br_read_bit ;; l <- read_bits (S n) ;; ret (b :: l)).
    rewrite (bind_ok _ _ _ _ _ E1). rewrite (bind_ok _ _ _ _ _ I). reflexivity.
Qed.

Lemma sim_Rat bytes e : bytes_ok bytes -> sim (Rat bytes e) (rbl (EofErr (EIo e))) br_read_bit.
Proof.
  intros HB bs r (off & HA & HO & ->).
  destruct (at_bit_Rbr _ _ _ _ HB HA) as [_ HR].
  destruct (sim_br_read_bit e _ _ HR) as (r' & E & R').
  destruct (skipn off (bits_of_bytes bytes)) as [|b bs] eqn:ES.
  - cbn [rbl fst snd eof_out] in *. exists r.
    assert (ER : br_read_bit r = (Err (EIo e), r)).
    { assert (L := Rbr_length _ _ _ HR). unfold br_bits_left in L. cbn [List.length] in L.
      destruct HR as (_ & _ & HE & _). destruct r as [[rs ae] cur rem tr]. cbn [br_inner br_remaining rest at_end] in *.
      destruct rs as [|x rs]; [|cbn in L; lia]. assert (rem = 0) as -> by lia. subst ae. reflexivity. }
    split; [exact ER|]. exists off. auto.
  - cbn [rbl fst snd] in *. exists r'. split; [exact E|].
    exists (S off). destruct HA as (l & HA). split; [|split].
    + exists (l ++ [b]). eapply read_bits_snoc; eassumption.
    + assert (L := f_equal (@List.length bool) ES). rewrite skipn_length, bits_of_bytes_length in L. cbn [List.length] in L. lia.
    + change (S off) with (1 + off)%nat. rewrite <- skipn_skipn, ES. reflexivity.
Qed.

(** Transfer a characterisation on bit lists to readers. *)
Lemma pspec_at {A} (m1 : M (list bool) A) (m2 : M bit_reader A) P bytes e off r a r' :
  pspec m1 P -> sim (Rat bytes e) m1 m2 -> bytes_ok bytes -> at_bit bytes e off r ->
  m2 r = (Ok a, r') <-> exists w, bits_at bytes off w /\ P a w /\ at_bit bytes e (off + List.length w) r'.
Proof.
  intros HP HS HB HA. assert (HR := at_bit_Rat _ _ _ _ HB HA).
  assert (HO := proj1 (at_bit_Rbr _ _ _ _ HB HA)).
  destruct (HS _ _ HR) as (r1 & E & R1).
  assert (UN : forall n r2 r3, at_bit bytes e n r2 -> at_bit bytes e n r3 -> r2 = r3).
  { intros n r2 r3 (l2 & E2) (l3 & E3). congruence. }
  assert (POS : forall w t, skipn off (bits_of_bytes bytes) = w ++ t -> forall n, at_bit bytes e n r1 ->
                 snd (m1 (skipn off (bits_of_bytes bytes))) = t -> n = (off + List.length w)%nat).
  { intros w t ES n HN ET. rewrite ET in R1. assert (X := Rat_off _ _ _ _ _ R1 HN HB).
    assert (L1 := f_equal (@List.length bool) ES). assert (L2 := f_equal (@List.length bool) X).
    rewrite app_length in L1. rewrite !skipn_length, bits_of_bytes_length in *.
    destruct (at_bit_Rbr _ _ _ _ HB HN) as [HN' _]. lia. }
  split.
  - intro E2. rewrite E in E2. destruct (m1 (skipn off (bits_of_bytes bytes))) as [o t] eqn:EM. cbn [fst snd] in *.
    injection E2 as -> ->. apply HP in EM. destruct EM as (w & EW & HPW). exists w. split; [now exists t|].
    split; [exact HPW|]. destruct R1 as (n & HN & HL & HT). rewrite <- (POS w t EW n HN eq_refl). exact HN.
  - intros (w & (t & EW) & HPW & HA').
    assert (EM : m1 (skipn off (bits_of_bytes bytes)) = (Ok a, t)) by (apply HP; eauto).
    rewrite EM in E. cbn [fst] in E. rewrite E. f_equal.
    destruct R1 as (n & HN & HL & HT). assert (EN := POS w t EW n HN ltac:(now rewrite EM)).
    subst n. exact (UN _ _ _ HN HA').
Qed.

(** Every intermediate offset has a reader. *)
Lemma at_bit_exists bytes e n : bytes_ok bytes -> (n <= 8 * List.length bytes)%nat -> exists r, at_bit bytes e n r.
Proof.
  intros HB HN. assert (R0 := Rbr_new (mkSource bytes e) HB). cbn [rest at_end] in R0.
  destruct (read_bits_spec e n _ _ R0) as (r & E & _); [now rewrite bits_of_bytes_length|].
  exists r. eexists. exact E.
Qed.

Lemma bits_at_length bytes off w : bits_at bytes off w -> (off <= 8 * List.length bytes)%nat ->
  (off + List.length w <= 8 * List.length bytes)%nat.
Proof.
  intros (t & E) H. apply (f_equal (@List.length bool)) in E.
  rewrite skipn_length, bits_of_bytes_length, app_length in E. lia.
Qed.

(** ** No panics *)
Definition safe {A} (m : M (list bool) A) : Prop := forall bs, returns (fst (m bs)).

Lemma safe_bind {A B} (m : M _ A) (g : A -> M _ B) :
  safe m -> (forall a bs bs', m bs = (Ok a, bs') -> safe (g a)) -> safe (bind m g).
Proof.
  intros H1 H2 bs. unfold bind. specialize (H1 bs). destruct (m bs) as [[a| | |] bs'] eqn:E; cbn in *; auto.
  apply (H2 _ _ _ E).
Qed.
Lemma safe_ret {A} (a : A) : safe (ret a). Proof. intro. exact I. Qed.
Lemma safe_fail {A} m : safe (fail m : M _ A). Proof. intro. exact I. Qed.
Lemma safe_ensure b m : safe (ensure b m). Proof. destruct b; intro; exact I. Qed.
Lemma safe_lift {A} (x : outcome A) : returns x -> safe (lift x). Proof. intros H bs. exact H. Qed.

Lemma safe_read_part e n : n <= 16 -> safe (read_part (rbl (EofErr e)) n).
Proof. intros H bs. rewrite read_part_spec by assumption. destruct (Nat.leb _ _); exact I. Qed.

Lemma safe_decode e t : safe (decode_symbol (rbl (EofErr e)) t).
Proof.
  intro bs. destruct (decode_symbol_total (EofErr e) t bs) as [(s & bs' & E)|E]; rewrite E; exact I.
Qed.

Lemma safe_tree_new lens : N.of_nat (List.length lens) <= 65536 -> returns (tree_new lens).
Proof. intro H. assert (T := tree_new_spec lens H). destruct (tree_new lens); cbn; tauto. Qed.

Lemma safe_cl_loop e n : forall i lens, (i + n <= 15)%nat -> List.length lens = 19%nat ->
  safe (read_cl_loop (rbl (EofErr e)) (seq i n) lens).
Proof.
  induction n; intros i lens Hi HL; cbn [seq read_cl_loop]; [apply safe_ret|].
  destruct (cl_order_pos i ltac:(lia)) as [HP HB]. rewrite <- HP.
  apply safe_bind; [apply safe_read_part; lia|]. intros v _ _ _.
  rewrite set_idx_ok by (rewrite HL; exact HB).
  apply safe_bind; [apply safe_lift; exact I|]. intros l' bs0 bs1 E. apply lift_inv in E. destruct E as [E _].
  injection E as <-. apply IHn; [clear - Hi; lia|now rewrite upd_length].
Qed.

Lemma safe_lens_loop e cl t len : tree_of cl t -> List.length cl = 19%nat -> forall fuel (i : nat) rv rl lens,
  (i < len)%nat -> List.length lens = len ->
  (2 * (len - i) + (if (rl =? 0)%N then 1 else 0) <= fuel)%nat ->
  safe (read_lens_loop (rbl (EofErr e)) fuel t len i rv rl lens).
Proof.
  intros HT HC. induction fuel as [|fuel IH]; intros i rv rl lens Hi HL Hf.
  { destruct (rl =? 0); lia. }
  cbn [read_lens_loop].
  assert (CONT : forall (i' : nat) rv rl' lens', List.length lens' = len ->
             ((i' < len)%nat -> (2 * (len - i') + (if (rl' =? 0)%N then 1 else 0) <= fuel)%nat) ->
             safe (if Nat.leb len i' then ret (rl', lens') else read_lens_loop (rbl (EofErr e)) fuel t len i' rv rl' lens')).
  { intros i' rv' rl' lens' HL' HF'. destruct (Nat.leb_spec len i'); [apply safe_ret|]. apply IH; auto. }
  assert (SETI : forall x, set_idx lens i x = Ok (upd lens i x)) by (intro; apply set_idx_ok; lia).
  destruct (N.ltb_spec 0 rl) as [Hr|Hr].
  - destruct rv as [v|]; [|apply safe_fail]. rewrite SETI.
    apply safe_bind; [apply safe_lift; exact I|]. intros l' bs0 bs1 E. apply lift_inv in E. destruct E as [E _]. injection E as <-.
    apply CONT; [now rewrite upd_length|]. intro. destruct (rl =? 0) eqn:E0; [apply N.eqb_eq in E0; lia|].
    destruct (rl - 1 =? 0); lia.
  - assert (rl = 0) as -> by lia. change (0 =? 0) with true in Hf. cbn iota in Hf.
    apply safe_bind; [apply safe_decode|]. intros sym bs0 bs1 ED.
    apply (decode_symbol_spec _ cl t) in ED; [|assumption]. destruct ED as (w1 & _ & HCo).
    assert (SB := rfc_code_bound _ _ _ HCo). rewrite HC in SB.
    destruct (N.leb_spec sym 15).
    { rewrite SETI. apply safe_bind; [apply safe_lift; exact I|]. intros l' b0 b1 E. apply lift_inv in E. destruct E as [E _]. injection E as <-.
      apply CONT; [now rewrite upd_length|]. change (0 =? 0) with true. cbn iota. lia. }
    destruct (N.eqb_spec sym 16).
    { apply safe_bind; [apply safe_ensure|]. intros _ _ _ _. apply safe_bind; [apply safe_read_part; lia|]. intros nn _ _ _.
      apply CONT; [assumption|]. intros _. destruct (N.eqb_spec (nn + 3) 0); lia. }
    destruct (N.eqb_spec sym 17).
    { apply safe_bind; [apply safe_read_part; lia|]. intros nn _ _ _.
      apply CONT; [assumption|]. intros _. destruct (N.eqb_spec (nn + 3) 0); lia. }
    destruct (N.eqb_spec sym 18).
    { apply safe_bind; [apply safe_read_part; lia|]. intros nn _ _ _.
      apply CONT; [assumption|]. intros _. destruct (N.eqb_spec (nn + 11) 0); lia. }
    lia.
Qed.

Lemma lens_loop_length k cl t len : tree_of cl t -> List.length cl = 19%nat -> forall fuel (i : nat) rv rl lens bs r l bs',
  List.length lens = len ->
  read_lens_loop (rbl k) fuel t len i rv rl lens bs = (Ok (r, l), bs') -> List.length l = len.
Proof.
  intros HT HC. induction fuel as [|fuel IH]; intros i rv rl lens bs r l bs' HL E; [discriminate|].
  cbn [read_lens_loop] in E.
  assert (CONT : forall (i' : nat) rv rl' lens' bs, List.length lens' = len ->
             (if Nat.leb len i' then ret (rl', lens') else read_lens_loop (rbl k) fuel t len i' rv rl' lens') bs = (Ok (r, l), bs') ->
             List.length l = len).
  { clear E. intros i' rv' rl' lens' bs0 HL' E. destruct (Nat.leb len i').
    - apply ok_inj in E. destruct E as [E _]. congruence.
    - eapply IH; eauto. }
  destruct (0 <? rl).
  - destruct rv as [v|]; [|discriminate].
    apply bind_inv in E. destruct E as (l' & b1 & E1 & E). apply lift_inv in E1. destruct E1 as [E1 _].
    apply set_idx_inv in E1. subst l'. eapply CONT; [|exact E]. now rewrite upd_length.
  - apply bind_inv in E. destruct E as (sym & b1 & E1 & E).
    destruct (sym <=? 15).
    { apply bind_inv in E. destruct E as (l' & b2 & E2 & E). apply lift_inv in E2. destruct E2 as [E2 _].
      apply set_idx_inv in E2. subst l'. eapply CONT; [|exact E]. now rewrite upd_length. }
    destruct (sym =? 16).
    { apply bind_inv in E. destruct E as (u & b2 & E2 & E). apply bind_inv in E. destruct E as (n & b3 & E3 & E).
      eapply CONT; [|exact E]. assumption. }
    destruct (sym =? 17).
    { apply bind_inv in E. destruct E as (n & b3 & E3 & E). eapply CONT; [|exact E]. assumption. }
    destruct (sym =? 18).
    { apply bind_inv in E. destruct E as (n & b3 & E3 & E). eapply CONT; [|exact E]. assumption. }
    discriminate.
Qed.

Lemma safe_read_codes e : safe (read_codes (rbl (EofErr e))).
Proof.
  unfold read_codes.
  apply safe_bind; [apply safe_read_part; lia|]. intros hlit b0 b1 R1. apply pspec_read_part in R1; [|lia]. destruct R1 as (_ & _ & H1 & _).
  apply safe_bind; [apply safe_read_part; lia|]. intros hdist b2 b3 R2. apply pspec_read_part in R2; [|lia]. destruct R2 as (_ & _ & H2 & _).
  apply safe_bind; [apply safe_read_part; lia|]. intros hclen b4 b5 R3. apply pspec_read_part in R3; [|lia]. destruct R3 as (_ & _ & H3 & _).
  change (2 ^ 5) with 32 in *. change (2 ^ 4) with 16 in *.
  clear b0 b1 b2 b3 b4 b5.
  assert (ST : forall (l : list N) (i : nat) v, List.length l = 19%nat -> (i < 19)%nat -> returns (set_idx l i v)).
  { intros l i v HL Hi. rewrite set_idx_ok by lia. exact I. }
  assert (UP : forall (l : list N) (i : nat) v l' (b b' : list bool), lift (set_idx l i v) b = (Ok l', b') -> List.length l = 19%nat -> List.length l' = 19%nat).
  { intros l i v l' b b' E HL. apply lift_inv in E. destruct E as [E _]. apply set_idx_inv in E. subst. now rewrite upd_length. }
  apply safe_bind; [apply safe_read_part; lia|]. intros a0 _ _ _.
  apply safe_bind; [apply safe_lift, ST; [reflexivity|lia]|]. intros l1 b1 b1' E1. apply UP in E1; [|reflexivity].
  apply safe_bind; [apply safe_read_part; lia|]. intros a1 _ _ _.
  apply safe_bind; [apply safe_lift, ST; [assumption|lia]|]. intros l2 b2 b2' E2. apply UP in E2; [|assumption].
  apply safe_bind; [apply safe_read_part; lia|]. intros a2 _ _ _.
  apply safe_bind; [apply safe_lift, ST; [assumption|lia]|]. intros l3 b3 b3' E3. apply UP in E3; [|assumption].
  apply safe_bind; [apply safe_read_part; lia|]. intros a3 _ _ _.
  apply safe_bind; [apply safe_lift, ST; [assumption|lia]|]. intros l4 b4 b4' E4. apply UP in E4; [|assumption].
  apply safe_bind; [apply safe_cl_loop; [lia|assumption]|]. intros cll b5 b5' E5.
  apply pspec_cl_loop in E5; [|lia|assumption]. destruct E5 as (w5 & _ & vs & _ & _ & _ & EC).
  assert (LC : List.length cll = 19%nat) by (subst cll; rewrite put_all_length; assumption).
  apply safe_bind; [apply safe_lift, safe_tree_new; lia|]. intros ct b6 b6' E6. apply lift_inv in E6. destruct E6 as [E6 _].
  assert (TO : tree_of cll ct) by (split; [assumption|lia]).
  apply safe_bind.
  { apply (safe_lens_loop e cll); try assumption.
    - lia.
    - apply repeat_length.
    - change (0 =? 0) with true. cbn iota. lia. }
  intros [rl lens] b7 b7' E7. apply (lens_loop_length _ cll) in E7; [|assumption|assumption|apply repeat_length].
  apply safe_bind; [apply safe_ensure|]. intros _ _ _ _.
  apply safe_bind. { apply safe_lift, safe_tree_new. rewrite firstn_length. lia. }
  intros lt b8 b8' _.
  destruct (match skipn (N.to_nat (hlit + 257)) lens with [x] => 0 =? x | _ => false end) eqn:ED; [apply safe_ret|].
  apply safe_bind; [|intros; apply safe_ret]. apply safe_lift.
  assert (NZ : skipn (N.to_nat (hlit + 257)) lens <> [0]).
  { intro HZ. apply is_single_zero in HZ. congruence. }
  assert (T := dist_tree_of_spec (skipn (N.to_nat (hlit + 257)) lens) ltac:(rewrite skipn_length; lia) NZ).
  destruct (dist_tree_of _); cbn; tauto.
Qed.

Lemma safe_run_length e sym : safe (decode_run_length (rbl (EofErr e)) sym).
Proof.
  unfold decode_run_length. apply safe_bind; [apply safe_ensure|]. intros u b b' E. apply ensure_inv in E.
  destruct E as [E _]. apply andb_true_iff in E. rewrite !N.leb_le in E.
  destruct (N.leb_spec sym 264); [apply safe_ret|]. destruct (N.leb_spec sym 284).
  - assert (EB : ((sym - 261) / 4) mod 256 <= 5) by lia.
    apply safe_bind.
    + replace (_ <? 6) with true by (symmetry; apply N.ltb_lt; lia). apply safe_ret.
    + intros _ _ _ _. apply safe_bind; [apply safe_read_part; lia|]. intros; apply safe_ret.
  - destruct (sym =? 285); [apply safe_ret|apply safe_fail].
Qed.

Lemma safe_distance e sym : safe (decode_distance (rbl (EofErr e)) sym).
Proof.
  unfold decode_distance. destruct (N.leb_spec sym 3); [apply safe_ret|]. destruct (N.leb_spec sym 29).
  - apply safe_bind; [apply safe_read_part; lia|]. intros; apply safe_ret.
  - destruct (sym <=? 31); apply safe_fail.
Qed.

Lemma decode_consumes k lens t bs s bs' : tree_of lens t -> decode_symbol (rbl k) t bs = (Ok s, bs') ->
  (List.length bs' < List.length bs)%nat.
Proof.
  intros HT E. apply (decode_symbol_spec k lens t) in E; [|assumption]. destruct E as (w & -> & H).
  apply rfc_code_nonempty in H. rewrite app_length. lia.
Qed.

Lemma safe_scan e ll lt dt : tree_of ll lt ->
  forall fuel bs, (List.length bs < fuel)%nat ->
  returns (fst (scan_loop (rbl (EofErr e)) fuel lt dt bs)).
Proof.
  intros HL. induction fuel as [|fuel IH]; intros bs HF; [lia|].
  cbn [scan_loop]. set (k := EofErr e) in *.
  unfold bind at 1. destruct (decode_symbol (rbl k) lt bs) as [o bs1] eqn:ED.
  assert (S1 := safe_decode e lt bs). fold k in S1. rewrite ED in S1. cbn [fst] in S1.
  destruct o as [sym| | |]; cbn [returns fst] in *; auto.
  assert (C1 := decode_consumes _ _ _ _ _ _ HL ED).
  destruct (sym =? 256); [exact I|].
  destruct (sym <? 256).
  { unfold bind. specialize (IH bs1 ltac:(lia)). destruct (scan_loop (rbl k) fuel lt dt bs1) as [[]]; cbn in *; auto. }
  unfold bind at 1. destruct (decode_run_length (rbl k) sym bs1) as [o bs2] eqn:E2.
  assert (S2 := safe_run_length e sym bs1). fold k in S2. rewrite E2 in S2. cbn [fst] in S2.
  destruct o as [run| | |]; cbn [returns fst] in *; auto.
  apply pspec_run_length in E2. destruct E2 as (w2 & -> & lx & le & TL & ->).
  assert (BL := table_row_length _ _ _ _ TL). rewrite app_length in C1.
  unfold bind at 1.
  destruct dt as [t|]; [|exact I].
  destruct (decode_symbol (rbl k) t bs2) as [o bs3] eqn:E3.
  assert (S3 := safe_decode e t bs2). fold k in S3. rewrite E3 in S3. cbn [fst] in S3.
  destruct o as [dsym| | |]; cbn [returns fst] in *; auto.
  assert (C3 : (List.length bs3 <= List.length bs2)%nat).
  { unfold decode_symbol in E3. apply decode_node_inv in E3. destruct E3 as (w & -> & _). rewrite app_length. lia. }
  unfold bind at 1. destruct (decode_distance (rbl k) dsym bs3) as [o bs4] eqn:E4.
  assert (S4 := safe_distance e dsym bs3). fold k in S4. rewrite E4 in S4. cbn [fst] in S4.
  destruct o as [d| | |]; cbn [returns fst] in *; auto.
  apply pspec_distance in E4. destruct E4 as (w4 & -> & dx & de & TD & ->). rewrite app_length in C3.
  assert (BD := table_row_distance _ _ _ _ TD).
  unfold bind at 1. destruct ((1 <=? d) && (d <=? 32786)); [|exact I]. cbn [ensure]. unfold ret at 1.
  unfold bind at 1, lift at 1. rewrite Ref_new_ok by lia.
  unfold bind. specialize (IH bs4 ltac:(lia)). destruct (scan_loop (rbl k) fuel lt (Some t) bs4) as [[]]; cbn in *; auto.
Qed.
