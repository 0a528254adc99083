(** Lemmas: with machine arithmetic, in either build, the code does what the model says. *)
From Verif Require Import Base M_bit M_lib M_code_tree M_huffman M_circles M_gzip M_parse M_serialise M_dump M_rezippers M_arith L_bits.
From Coq Require Import ZArith ZifyBool ZifyNat ZifyN.
Ltac Zify.zify_post_hook ::= Z.div_mod_to_equations.
Local Open Scope N_scope.
Local Open Scope model_scope.

(** ** Operations whose result fits *)
Lemma add_ok bd w a b : a + b < 2 ^ w -> add bd w a b = Ok (a + b).
Proof. intro H. unfold add. apply N.ltb_lt in H. now rewrite H. Qed.
Lemma sub_ok bd w a b : b <= a -> sub bd w a b = Ok (a - b).
Proof. intro H. unfold sub. apply N.leb_le in H. now rewrite H. Qed.
Lemma mul_ok bd w a b : a * b < 2 ^ w -> mul bd w a b = Ok (a * b).
Proof. intro H. unfold mul. apply N.ltb_lt in H. now rewrite H. Qed.
Lemma shl_ok bd w a n : n < w -> N.shiftl a n < 2 ^ w -> shl bd w a n = Ok (N.shiftl a n).
Proof. intros H1 H2. unfold shl. apply N.ltb_lt in H1. rewrite H1. now rewrite N.mod_small. Qed.
Lemma shl1_ok bd w n : n < w -> shl bd w 1 n = Ok (N.shiftl 1 n).
Proof. intro H. apply shl_ok; [exact H|]. rewrite N.shiftl_1_l. apply N.pow_lt_mono_r; lia. Qed.
Lemma shr_ok bd w a n : n < w -> shr bd w a n = Ok (N.shiftr a n).
Proof. intro H. unfold shr. apply N.ltb_lt in H. now rewrite H. Qed.

(** ** Equal computations *)
Definition simq {S A} (I : S -> Prop) (Q : A -> Prop) (m1 m2 : M S A) : Prop :=
  forall s, I s -> m1 s = m2 s /\ match fst (m2 s) with Ok a => I (snd (m2 s)) /\ Q a | Err _ => I (snd (m2 s)) | _ => True end.

Lemma q_ret {S A} (I : S -> Prop) (Q : A -> Prop) a : Q a -> simq I Q (ret a) (ret a).
Proof. intros H s HI. cbn. auto. Qed.
Lemma q_lift {S A} (I : S -> Prop) (Q : A -> Prop) o : (forall a, o = Ok a -> Q a) -> simq I Q (lift o) (lift o).
Proof. intros H s HI. split; [reflexivity|]. destruct o; cbn; auto. Qed.
Lemma q_fail {S A} (I : S -> Prop) (Q : A -> Prop) m : simq I Q (fail m) (fail m).
Proof. intros s HI. cbn. auto. Qed.
Lemma q_panic {S A} (I : S -> Prop) (Q : A -> Prop) m : simq I Q (panic m) (panic m).
Proof. intros s HI. cbn. auto. Qed.
Lemma q_bind {S A B} (I : S -> Prop) (Q : A -> Prop) (R : B -> Prop) m1 m2 k1 k2 :
  simq I Q m1 m2 -> (forall a, Q a -> simq I R (k1 a) (k2 a)) -> simq I R (bind m1 k1) (bind m2 k2).
Proof.
  intros H1 H2 s HI. destruct (H1 s HI) as [E HQ]. unfold bind. rewrite E. destruct (m2 s) as [o t]. cbn [fst snd] in HQ.
  destruct o; cbn [fst snd]; [apply H2; tauto|auto..].
Qed.
Lemma q_step {S A B} (I : S -> Prop) (R : B -> Prop) (a : A) (k1 : A -> M S B) m2 :
  simq I R (k1 a) m2 -> simq I R (bind (lift (Ok a)) k1) m2.
Proof. intro H. exact H. Qed.
Lemma q_ensure {S A} (I : S -> Prop) (R : A -> Prop) b m k1 k2 :
  (b = true -> simq I R k1 k2) -> simq I R (ensure b m ;;; k1) (ensure b m ;;; k2).
Proof. intro H. destruct b; cbn [ensure]; [exact (H eq_refl)|]. intros s HI. cbn. auto. Qed.
Lemma q_assert {S A} (I : S -> Prop) (R : A -> Prop) b m k1 k2 :
  (b = true -> simq I R k1 k2) -> simq I R (assert_ b m ;;; k1) (assert_ b m ;;; k2).
Proof. intro H. destruct b; cbn [assert_]; [exact (H eq_refl)|]. intros s HI. cbn. auto. Qed.
Lemma q_weak {S A} (I : S -> Prop) (Q Q' : A -> Prop) m1 m2 : simq I Q m1 m2 -> (forall a, Q a -> Q' a) -> simq I Q' m1 m2.
Proof. intros H HQ s HI. destruct (H s HI) as [E P]. split; [exact E|]. destruct (fst (m2 s)); intuition. Qed.

Definition any {A} (_ : A) : Prop := True.
#[export] Hint Unfold any : core.

(** A left-hand operation that fits. *)
Ltac width := change (2 ^ 8) with 256; change (2 ^ 16) with 65536; change (2 ^ 64) with 18446744073709551616; lia.
Ltac fits := first [rewrite add_ok by width | rewrite sub_ok by width | rewrite mul_ok by width
  | rewrite shl1_ok by lia | rewrite shr_ok by lia].
Ltac step := lazymatch goal with
  | |- simq _ _ (bind (lift (add ?bd ?w ?a ?b)) _) _ => rewrite (add_ok bd w a b) by width
  | |- simq _ _ (bind (lift (sub ?bd ?w ?a ?b)) _) _ => rewrite (sub_ok bd w a b) by width
  | |- simq _ _ (bind (lift (shl ?bd ?w 1 ?b)) _) _ => rewrite (shl1_ok bd w b) by width
  | |- simq _ _ (bind (lift (shr ?bd ?w ?a ?b)) _) _ => rewrite (shr_ok bd w a b) by width
  end; apply q_step.

(** ** Code over any bit source *)
Section Bits.
  Context (bd : build) {S : Type} (I : S -> Prop) (rb1 rb2 : M S bool) (HB : simq I any rb1 rb2).

  Lemma q_part_loop n : forall k res, (k + n <= 16)%nat -> res < 2 ^ N.of_nat k ->
    simq I (fun v => v < 2 ^ N.of_nat (k + n)) (mc_read_part_loop bd rb1 (seq k n) res) (read_part_loop rb2 (seq k n) res).
  Proof.
    induction n as [|n IH]; intros k res Hk HR; cbn [seq mc_read_part_loop read_part_loop].
    - apply q_ret. now rewrite Nat.add_0_r.
    - apply (q_bind I any); [exact HB|]. intros b _. rewrite <- Nat.add_succ_comm.
      assert (P : 2 ^ N.of_nat (Datatypes.S k) = 2 * 2 ^ N.of_nat k) by (rewrite Nat2N.inj_succ; apply N.pow_succ_r').
      destruct b.
      + rewrite shl1_ok by lia.
        apply (IH (Datatypes.S k) (N.lor res (N.shiftl 1 (N.of_nat k)))); [lia|]. rewrite lor_pow2_add by exact HR. lia.
      + apply (IH (Datatypes.S k) res); lia.
  Qed.

  Lemma q_part n : n <= 16 -> simq I (fun v => v < 2 ^ n) (mc_read_part bd rb1 n) (read_part rb2 n).
  Proof.
    intro Hn. apply q_assert. intros _. eapply q_weak; [apply (q_part_loop (N.to_nat n) 0 0); [lia|reflexivity]|].
    intro v. cbn [Nat.add]. now rewrite N2Nat.id.
  Qed.

  Lemma q_node n : simq I any (decode_node rb1 n) (decode_node rb2 n).
  Proof. induction n; cbn [decode_node]; [now apply q_ret|]. apply (q_bind I any); [exact HB|]. intros [] _; assumption. Qed.
  Lemma q_decode t : simq I any (decode_symbol rb1 t) (decode_symbol rb2 t).
  Proof. apply q_node. Qed.

  Lemma q_cl n : forall k lens, (k + n <= 15)%nat -> simq I any (mc_cl_loop bd rb1 (seq k n) lens) (read_cl_loop rb2 (seq k n) lens).
  Proof.
    induction n as [|n IH]; intros k lens Hk; cbn [seq mc_cl_loop read_cl_loop]; [now apply q_ret|].
    assert (E : (if Nat.even k then add bd 64 8 (N.of_nat (k / 2)) else sub bd 64 7 (N.of_nat (k / 2)))
                = Ok (N.of_nat (if Nat.even k then 8 + k / 2 else 7 - k / 2)%nat)).
    { pose proof (Nat.div_lt_upper_bound k 2 8 ltac:(lia) ltac:(lia)). destruct (Nat.even k); fits; f_equal; lia. }
    rewrite E. apply q_step. rewrite Nat2N.id. apply (q_bind I _ any _ _ _ _ (q_part 3 ltac:(lia))). intros v _.
    apply (q_bind I any); [now apply q_lift|]. intros l _. apply IH. lia.
  Qed.

  Lemma q_lens t len : (len <= 1000)%nat -> forall fuel i rv rl cl, (i < len)%nat -> rl < 1000 ->
    simq I (fun r => fst r < 1000) (mc_lens_loop bd rb1 fuel t len i rv rl cl) (read_lens_loop rb2 fuel t len i rv rl cl).
  Proof.
    intro HL. induction fuel as [|fuel IH]; intros i rv rl cl Hi Hr; cbn [mc_lens_loop read_lens_loop]; [now apply q_lift|].
    assert (HC : forall i rv rl cl, rl < 1000 -> simq I (fun r => fst r < 1000)
      (if Nat.leb len i then ret (rl, cl) else mc_lens_loop bd rb1 fuel t len i rv rl cl)
      (if Nat.leb len i then ret (rl, cl) else read_lens_loop rb2 fuel t len i rv rl cl)).
    { intros i' rv' rl' cl' H. destruct (Nat.leb_spec len i'); [now apply q_ret|apply IH; assumption]. }
    assert (HI : N.to_nat (N.of_nat i + 1) = (i + 1)%nat) by lia.
    destruct (N.ltb_spec 0 rl).
    - destruct rv; [|apply q_fail]. apply (q_bind I any); [now apply q_lift|]. intros l _. step. step. rewrite HI. apply HC. lia.
    - apply (q_bind I any); [apply q_decode|]. intros sym _. destruct (sym <=? 15).
      { apply (q_bind I any); [now apply q_lift|]. intros l _. step. rewrite HI. apply HC. lia. }
      destruct (sym =? 16).
      { apply q_ensure. intros _. apply (q_bind I _ _ _ _ _ _ (q_part 2 ltac:(lia))). intros v Hv.
        change (2 ^ 2) with 4 in Hv. step. apply HC. lia. }
      destruct (sym =? 17).
      { apply (q_bind I _ _ _ _ _ _ (q_part 3 ltac:(lia))). intros v Hv. change (2 ^ 3) with 8 in Hv. step. apply HC. lia. }
      destruct (sym =? 18); [|apply q_panic].
      apply (q_bind I _ _ _ _ _ _ (q_part 7 ltac:(lia))). intros v Hv. change (2 ^ 7) with 128 in Hv. step. apply HC. lia.
  Qed.

  Definition made (t : code_tree) : Prop := exists lens, tree_new lens = Ok t.
  Definition both_made (p : code_tree * option code_tree) : Prop :=
    made (fst p) /\ match snd p with Some t => made t | None => True end.

  Lemma q_read_codes : simq I both_made (mc_read_codes bd rb1) (read_codes rb2).
  Proof.
    unfold mc_read_codes, read_codes.
    apply (q_bind I _ _ _ _ _ _ (q_part 5 ltac:(lia))). intros a Ha. change (2 ^ 5) with 32 in Ha. step.
    apply (q_bind I _ _ _ _ _ _ (q_part 5 ltac:(lia))). intros b Hb. change (2 ^ 5) with 32 in Hb. step.
    apply (q_bind I _ _ _ _ _ _ (q_part 4 ltac:(lia))). intros c Hc. change (2 ^ 4) with 16 in Hc. step.
    do 4 (apply (q_bind I _ _ _ _ _ _ (q_part 3 ltac:(lia))); intros ? _; apply (q_bind I any); [now apply q_lift|]; intros ? _).
    step. replace (N.to_nat (c + 4 - 4)) with (N.to_nat (c + 4) - 4)%nat by lia.
    apply (q_bind I any); [apply q_cl; lia|]. intros cls _. apply (q_bind I any); [now apply q_lift|]. intros t _. step.
    replace (N.to_nat (a + 257 + (b + 1))) with (N.to_nat (a + 257) + N.to_nat (b + 1))%nat by lia.
    apply (q_bind I (fun r => fst r < 1000)); [apply q_lens; lia|]. intros [rl cl] _.
    apply q_ensure. intros _. apply (q_bind I made); [apply q_lift; intros ? E; eexists; exact E|]. intros lt Hlt.
    destruct (match _ with [x] => _ | _ => _ end); [now apply q_ret|]. apply (q_bind I made).
    { apply q_lift. unfold dist_tree_of. destruct (Nat.eqb 1 _ && Nat.eqb 0 _); intros ? E; eexists; exact E. }
    intros dt Hdt. now apply q_ret.
  Qed.

  Lemma q_run_length sym : simq I any (mc_decode_run_length bd rb1 sym) (decode_run_length rb2 sym).
  Proof.
    unfold mc_decode_run_length, decode_run_length. apply q_ensure. intro H.
    destruct (N.leb_spec sym 264); [fits; now apply q_ret|]. destruct (N.leb_spec sym 284).
    - step. apply q_assert. intro HX. step. step.
      assert (E : shl bd 8 ((sym - 265) mod 256 mod 4 + 4) ((sym - 261) / 4 mod 256)
        = Ok (N.shiftl ((sym - 265) mod 256 mod 4 + 4) ((sym - 261) / 4 mod 256) mod 256)).
      { unfold shl. replace ((sym - 261) / 4 mod 256 <? 8) with true by lia. reflexivity. }
      rewrite E. apply q_step. apply (q_bind I _ _ _ _ _ _ (q_part ((sym - 261) / 4 mod 256) ltac:(lia))). intros v Hv.
      pose proof (N.mod_lt (N.shiftl ((sym - 265) mod 256 mod 4 + 4) ((sym - 261) / 4 mod 256)) 256 ltac:(lia)).
      pose proof (N.mod_lt v 256 ltac:(lia)). step. fits. now apply q_ret.
    - destruct (sym =? 285); [now apply q_ret|apply q_fail].
  Qed.

  Lemma q_distance sym : simq I any (mc_decode_distance bd rb1 sym) (decode_distance rb2 sym).
  Proof.
    unfold mc_decode_distance, decode_distance. destruct (N.leb_spec sym 3); [fits; now apply q_ret|].
    destruct (N.leb_spec sym 29); [|destruct (sym <=? 31); apply q_fail].
    step. step. set (x := (sym / 2 - 1) mod 256).
    assert (HX : x <= 13) by (unfold x; lia).
    assert (HP : 2 ^ x <= 8192) by (change 8192 with (2 ^ 13); apply N.pow_le_mono_r; lia).
    pose proof (N.mod_lt sym 2 ltac:(lia)) as HM.
    assert (HS : N.shiftl (sym mod 2 + 2) x <= 24576) by (rewrite N.shiftl_mul_pow2; nia).
    rewrite shl_ok by width. apply q_step. step.
    apply (q_bind I _ _ _ _ _ _ (q_part x ltac:(lia))). intros v Hv. fits. now apply q_ret.
  Qed.

  Lemma q_Ref_new dist run : mc_Ref_new bd dist run = Ref_new dist run.
  Proof. unfold mc_Ref_new, Ref_new. destruct (N.leb_spec 3 run); [|reflexivity]. destruct (run <=? 258); [|reflexivity]. fits. reflexivity. Qed.

  Definition run_fits (c : Code) : Prop := match c with Literal _ => True | Reference r => r_run_minus_3 r < 256 end.

  Lemma q_scan fuel lt dt : simq I (Forall run_fits) (mc_scan_loop bd rb1 fuel lt dt) (scan_loop rb2 fuel lt dt).
  Proof.
    induction fuel as [|fuel IH]; cbn [mc_scan_loop scan_loop]; [now apply q_lift|].
    apply (q_bind I any); [apply q_decode|]. intros sym _. destruct (sym =? 256); [apply q_ret; constructor|].
    destruct (sym <? 256).
    { apply (q_bind I _ _ _ _ _ _ IH). intros cs Hcs. apply q_ret. now constructor. }
    apply (q_bind I any); [apply q_run_length|]. intros run _.
    apply (q_bind I any); [destruct dt; [apply q_decode|apply q_fail]|]. intros dsym _.
    apply (q_bind I any); [apply q_distance|]. intros dist _. apply q_ensure. intros _. rewrite q_Ref_new.
    apply (q_bind I (fun r => r_run_minus_3 r < 256)).
    { apply q_lift. unfold Ref_new. intros r. repeat (match goal with |- context [if ?b then _ else _] => destruct b end; try discriminate).
      intro E. injection E as <-. cbn [r_run_minus_3]. now apply N.mod_lt. }
    intros r Hr. apply (q_bind I _ _ _ _ _ _ IH). intros cs Hcs. apply q_ret. now constructor.
  Qed.
End Bits.

(** ** Bit vectors *)
Lemma push_ok bd v b : N.of_nat (bv_len v) + 1 < 2 ^ 64 -> mc_push bd v b = bv_push v b.
Proof.
  intro H. unfold mc_push, bv_push. rewrite add_ok by exact H. cbn [obind].
  replace (N.to_nat (N.of_nat (bv_len v) + 1)) with (S (bv_len v)) by lia.
  pose proof (Nat.mod_upper_bound (bv_len v) WORD_SIZE ltac:(discriminate)) as HM. unfold WORD_SIZE in HM at 2.
  rewrite shl1_ok by lia. reflexivity.
Qed.
Lemma push_len v b v' : bv_push v b = Ok v' -> bv_len v' = S (bv_len v).
Proof.
  unfold bv_push. intro E. destruct (if Nat.leb _ _ then _ else _); cbn [obind] in E; try discriminate.
  destruct (if b then _ else _); cbn [obind] in E; try discriminate. now injection E as <-.
Qed.
Lemma get_ok bd v pos : mc_get bd v pos = bv_get v pos.
Proof.
  unfold mc_get, bv_get. pose proof (Nat.mod_upper_bound pos WORD_SIZE ltac:(discriminate)) as HM. unfold WORD_SIZE in HM at 2.
  rewrite shl1_ok by lia. reflexivity.
Qed.
Lemma pop_ok bd v : mc_pop bd v = bv_pop v.
Proof.
  unfold mc_pop, bv_pop. destruct (Nat.eqb_spec 0 (bv_len v)); [reflexivity|]. rewrite sub_ok by lia. cbn [obind].
  replace (N.to_nat (N.of_nat (bv_len v) - 1)) with (bv_len v - 1)%nat by lia. rewrite get_ok. reflexivity.
Qed.
Lemma pop_byte_loop_ok bd n : forall k ret v, (k + n <= 8)%nat ->
  mc_pop_byte_loop bd (seq k n) ret v = bv_pop_byte_loop (seq k n) ret v.
Proof.
  induction n as [|n IH]; intros k ret v H; cbn [seq mc_pop_byte_loop bv_pop_byte_loop]; [reflexivity|]. rewrite pop_ok.
  destruct (bv_pop v) as [[[b|] v']| | |]; cbn [obind]; try reflexivity. rewrite sub_ok by lia. cbn [obind]. rewrite shl1_ok by lia. cbn [obind].
  destruct b; cbn [obind]; apply IH; lia.
Qed.
Lemma pop_byte_ok bd v : mc_pop_byte bd v = bv_pop_byte v.
Proof. unfold mc_pop_byte, bv_pop_byte. now rewrite pop_byte_loop_ok by lia. Qed.

(** ** The reader *)
Definition IR (r : bit_reader) : Prop := br_track r = None /\ br_remaining r <= 7 /\ bytes_ok (rest (br_inner r)).

Lemma bytes_ok_skipn n l : bytes_ok l -> bytes_ok (skipn n l).
Proof. intro H. rewrite <- (firstn_skipn n l) in H. now apply Forall_app in H. Qed.
Lemma bytes_ok_firstn n l : bytes_ok l -> bytes_ok (firstn n l).
Proof. intro H. rewrite <- (firstn_skipn n l) in H. now apply Forall_app in H. Qed.
Lemma bytes_ok_nth n l : bytes_ok l -> nth n l 0 < 256.
Proof.
  intro H. destruct (Nat.lt_ge_cases n (List.length l)); [|rewrite nth_overflow by assumption; lia].
  apply (proj1 (Forall_forall is_byte l) H). now apply nth_In.
Qed.

Lemma reader_bit bd r : IR r -> mc_read_bit bd r = br_read_bit r /\ IR (snd (br_read_bit r))
  /\ (br_bits_left (snd (br_read_bit r)) + (match fst (br_read_bit r) with Ok _ => 1 | _ => 0 end) <= br_bits_left r)%nat.
Proof.
  intros (HT & HR & HB). destruct r as [[bs e] cur rem tr]. cbn [br_track br_remaining br_inner rest] in *. subst tr.
  unfold mc_read_bit, br_read_bit, br_refill, bind, IR, br_bits_left. cbn [br_track br_remaining br_inner rest].
  destruct (N.eqb_spec 0 rem) as [<-|Hn].
  - unfold read_exact. cbn [rest at_end]. destruct bs as [|b bs]; cbn [Nat.leb List.length firstn skipn nth].
    + cbn. repeat split; auto; lia.
    + cbn [br_remaining br_track br_current br_inner]. rewrite (sub_ok bd 8 8 1) by lia. cbn [obind]. rewrite sub_ok by lia. cbn [obind].
      rewrite shr_ok by lia. cbn [obind fst snd br_track br_remaining br_inner rest]. inversion_clear HB. split; [reflexivity|].
      split; [repeat split; auto; lia|]. change (N.to_nat (8 - 1)) with 7%nat. change (N.to_nat 0) with 0%nat. lia.
  - cbn [br_remaining br_track br_current br_inner]. rewrite (sub_ok bd 8 rem 1) by lia. cbn [obind]. rewrite sub_ok by lia. cbn [obind].
    rewrite shr_ok by lia. cbn [obind fst snd br_track br_remaining br_inner rest]. repeat split; auto; lia.
Qed.

Definition IRK (r : bit_reader) : Prop := IR r /\ N.of_nat (br_bits_left r) < 2 ^ 64.
Definition ICK (s : bit_reader * bitvec) : Prop :=
  IR (fst s) /\ N.of_nat (bv_len (snd s)) + N.of_nat (br_bits_left (fst s)) < 2 ^ 64.

Section Reader.
  Context (bd : build).

  Lemma q_rb : simq IRK any (mc_read_bit bd) br_read_bit.
  Proof.
    intros r [HR HK]. destruct (reader_bit bd r HR) as (E & HR' & HL). split; [exact E|].
    assert (H : IRK (snd (br_read_bit r))) by (split; [exact HR'|destruct (fst (br_read_bit r)); lia]).
    destruct (fst (br_read_bit r)); unfold any; auto.
  Qed.

  Lemma q_bc : simq ICK any (mc_bc_read_bit bd (mc_read_bit bd)) (bc_read_bit br_read_bit).
  Proof.
    intros [r v] [HR HK]. cbn [fst snd] in *. destruct (reader_bit bd r HR) as (E & HR' & HL). unfold mc_bc_read_bit, bc_read_bit. cbn [fst snd].
    rewrite E. destruct (br_read_bit r) as [o r']. cbn [fst snd] in *. destruct o as [b|e|m|]; cbn [fst snd].
    - rewrite push_ok by lia. destruct (bv_push v b) as [v'|e|m|] eqn:EP; cbn [fst snd]; (split; [reflexivity|]); auto.
      + apply push_len in EP. split; [|exact I]. split; cbn [fst snd]; [exact HR'|]. lia.
      + split; cbn [fst snd]; [exact HR'|lia].
    - split; [reflexivity|]. split; cbn [fst snd]; [exact HR'|lia].
    - split; [reflexivity|exact I].
    - split; [reflexivity|exact I].
  Qed.

  Lemma q_collected : simq IRK any (mc_read_codes_collected bd) read_codes_collected.
  Proof.
    intros r [HR HK]. unfold mc_read_codes_collected, read_codes_collected.
    destruct (q_read_codes bd ICK _ _ q_bc (r, bv_new)) as [E H]; [split; cbn [fst snd]; [exact HR|cbn [bv_len bv_new]; lia]|].
    rewrite E. destruct (read_codes (bc_read_bit br_read_bit) (r, bv_new)) as [o [r' v']]. cbn [fst snd] in H. destruct o; (split; [reflexivity|]); cbn [fst snd]; auto.
    - destruct H as [[HR' HK'] _]. cbn [fst snd] in *. split; [|exact I]. split; [exact HR'|lia].
    - destruct H as [HR' HK']. cbn [fst snd] in *. split; [exact HR'|lia].
  Qed.

  Lemma q_scan_data lt dt : simq IRK (Forall run_fits) (mc_scan_huffman_data bd lt dt) (scan_huffman_data lt dt).
  Proof. intros r HR. apply (q_scan bd IRK _ _ q_rb). exact HR. Qed.

  Lemma q_position : simq IRK any (mc_position bd) br_position.
  Proof.
    intros r HR. unfold mc_position, br_position. destruct (N.leb_spec (br_remaining r) 7); [|now split].
    rewrite sub_ok by lia. split; [reflexivity|]. cbn. unfold any. auto.
  Qed.
  Lemma q_align_loop fuel : simq IRK any (mc_align_loop bd fuel) (br_align_loop fuel).
  Proof.
    induction fuel as [|fuel IH]; cbn [mc_align_loop br_align_loop]; [now apply q_lift|]. apply (q_bind IRK any); [apply q_position|]. intros p _.
    destruct (0 =? p); [now apply q_ret|]. apply (q_bind IRK any); [apply q_rb|]. intros b _. apply q_ensure. intros _. exact IH.
  Qed.
  Lemma q_untracked : simq IRK any br_assert_untracked br_assert_untracked.
  Proof. intros r HR. split; [reflexivity|]. unfold br_assert_untracked. destruct (br_track r); cbn; unfold any; auto. Qed.
  Lemma q_align : simq IRK any (mc_align bd) br_align.
  Proof. apply (q_bind IRK any); [apply q_untracked|]. intros _ _. apply q_align_loop. Qed.

  Lemma q_aligned : simq IRK any (mc_assert_aligned bd) br_assert_aligned.
  Proof.
    apply (q_bind IRK any); [apply q_position|]. intros p _. destruct (0 =? p); [now apply q_ret|apply q_panic].
  Qed.
  Lemma q_inner n : simq IRK bytes_ok (br_inner_read_exact n) (br_inner_read_exact n).
  Proof.
    intros [[bs e] cur rem tr] [(HT & HR & HB) HK]. split; [reflexivity|]. unfold br_inner_read_exact, zoom, read_exact.
    cbn [br_track br_remaining br_inner rest at_end] in *. unfold IRK, IR, br_bits_left in *. cbn [br_track br_remaining br_inner rest at_end] in *.
    destruct (Nat.leb_spec n (List.length bs)); cbn [fst snd br_track br_remaining br_inner rest].
    - split; [|now apply bytes_ok_firstn]. split; [repeat split; auto; now apply bytes_ok_skipn|]. rewrite skipn_length. lia.
    - split; [repeat split; auto; constructor|]. cbn [List.length]. lia.
  Qed.
  Lemma q_u16 : simq IRK any (mc_read_aligned_u16 bd) br_read_aligned_u16.
  Proof.
    apply (q_bind IRK any); [apply q_aligned|]. intros _ _. apply (q_bind IRK any); [apply q_untracked|]. intros _ _.
    apply (q_bind IRK _ _ _ _ _ _ (q_inner 2)). intros buf HB. pose proof (bytes_ok_nth 1 buf HB).
    rewrite shl_ok; [|lia|rewrite N.shiftl_mul_pow2; change (2 ^ 8) with 256; change (2 ^ 16) with 65536; lia].
    apply q_step. now apply q_ret.
  Qed.
  Lemma q_prefixed : simq IRK any (mc_read_length_prefixed bd) br_read_length_prefixed.
  Proof.
    apply (q_bind IRK any); [apply q_aligned|]. intros _ _. apply (q_bind IRK any); [apply q_untracked|]. intros _ _.
    apply (q_bind IRK any); [apply q_u16|]. intros l _. apply (q_bind IRK any); [apply q_u16|]. intros c _.
    apply q_ensure. intros _. eapply q_weak; [apply q_inner|]. intros; exact I.
  Qed.

  Definition block_runs (b : Block) : Prop :=
    match b with Uncompressed _ => True | FixedHuffman cs => Forall run_fits cs | DynamicHuffman _ cs => Forall run_fits cs end.

  Lemma q_read_block : simq IRK block_runs (mc_read_block bd) read_block.
  Proof.
    apply (q_bind IRK _ _ _ _ _ _ (q_part bd IRK _ _ q_rb 2 ltac:(lia))). intros ty _. destruct (ty =? 0).
    { apply (q_bind IRK any); [apply q_align|]. intros _ _. apply (q_bind IRK any); [apply q_prefixed|]. intros d _. apply q_ret. exact I. }
    destruct (ty =? 1).
    { apply (q_bind IRK any); [now apply q_lift|]. intros lt _. apply (q_bind IRK any); [now apply q_lift|]. intros dt _.
      apply (q_bind IRK _ _ _ _ _ _ (q_scan_data lt (Some dt))). intros cs H. apply q_ret. exact H. }
    destruct (ty =? 2).
    { apply (q_bind IRK any); [apply q_collected|]. intros [[lt dt] trees] _.
      apply (q_bind IRK _ _ _ _ _ _ (q_scan_data lt dt)). intros cs H. apply q_ret. exact H. }
    destruct (ty =? 3); [apply q_fail|apply q_panic].
  Qed.

  Definition IIT (it : block_iter) : Prop := IRK (bi_inner it).
  Definition next_runs (o : option Block) : Prop := match o with Some b => block_runs b | None => True end.

  Lemma q_next : simq IIT next_runs (mc_next bd) bi_next.
  Proof.
    intros [r e] HI. unfold mc_next, bi_next. cbn [bi_end bi_inner]. change (IRK r) in HI. destruct e.
    - destruct (q_align r HI) as [E H]. rewrite E. destruct (br_align r) as [[] r']; cbn [fst snd] in *; (split; [reflexivity|]); unfold IIT; cbn [fst snd bi_inner]; try exact I.
      + split; [apply H|exact I].
      + exact H.
    - destruct (q_rb r HI) as [E H]. rewrite E. destruct (br_read_bit r) as [[b|er| |] r']; cbn [fst snd] in *.
      + destruct H as [H _]. destruct (q_read_block r' H) as [E2 H2]. rewrite E2. destruct (read_block r') as [[] r'']; cbn [fst snd] in *; (split; [reflexivity|]); unfold IIT; cbn [fst snd bi_inner]; auto.
      + split; [reflexivity|]. exact H.
      + now split.
      + now split.
  Qed.
End Reader.

Lemma IIT_new bytes e : bytes_ok bytes -> N.of_nat (List.length bytes) < 2 ^ 61 -> IIT (parse_deflate (mkSource bytes e)).
Proof.
  intros HB HL. split; [repeat split; auto; cbn; lia|]. unfold br_bits_left. cbn [bi_inner parse_deflate br_new br_inner rest br_remaining].
  change (2 ^ 61) with 2305843009213693952 in HL. change (2 ^ 64) with 18446744073709551616. change (N.to_nat 0) with 0%nat. lia.
Qed.

(** ** gzip headers *)
Definition ISRC (K : nat) (s : source) : Prop := bytes_ok (rest s) /\ (List.length (rest s) <= K)%nat.

Section Header.
  Context (bd : build) (K : nat).

  Lemma q_exact n : simq (ISRC K) bytes_ok (read_exact n) (read_exact n).
  Proof.
    intros [bs e] [HB HK]. split; [reflexivity|]. unfold read_exact. cbn [rest at_end] in *.
    destruct (Nat.leb_spec n (List.length bs)); cbn [fst snd].
    - split; [split; cbn [rest]; [now apply bytes_ok_skipn|rewrite skipn_length; lia]|now apply bytes_ok_firstn].
    - split; cbn [rest]; [constructor|cbn; lia].
  Qed.
  Lemma q_null_loop fuel : forall into, simq (ISRC K) any (read_null_terminated_loop fuel into) (read_null_terminated_loop fuel into).
  Proof.
    induction fuel as [|fuel IH]; intro into; cbn [read_null_terminated_loop]; [now apply q_lift|].
    apply (q_bind (ISRC K) bytes_ok); [apply q_exact|]. intros buf _. destruct (0 =? nth 0 buf 0); [now apply q_ret|apply IH].
  Qed.
  Lemma q_null into : simq (ISRC K) any (read_null_terminated into) (read_null_terminated into).
  Proof. intros s HI. now apply q_null_loop. Qed.
  Lemma q_extra whole : simq (ISRC K) any (mc_read_extra bd whole) (read_extra whole).
  Proof.
    apply (q_bind (ISRC K) _ _ _ _ _ _ (q_exact 2)). intros buf HB. pose proof (bytes_ok_nth 1 buf HB).
    rewrite shl_ok; [|lia|rewrite N.shiftl_mul_pow2; change (2 ^ 8) with 256; change (2 ^ 64) with 18446744073709551616; lia].
    apply q_step. apply (q_bind (ISRC K) bytes_ok); [apply q_exact|]. intros ? _. now apply q_ret.
  Qed.
  Lemma has_bit_ok val bit : bit < 8 -> mc_has_bit bd val bit = Ok (has_bit val bit).
  Proof. intro H. unfold mc_has_bit. now rewrite shl1_ok by exact H. Qed.
  Lemma q_discard : simq (ISRC K) any (mc_discard_header bd) discard_header.
  Proof.
    apply (q_bind (ISRC K) bytes_ok); [apply q_exact|]. intros h _. do 3 (apply q_ensure; intros _).
    rewrite has_bit_ok by lia. apply q_step. apply (q_bind (ISRC K) any); [destruct (has_bit _ _); [apply q_extra|now apply q_ret]|]. intros w _.
    rewrite has_bit_ok by lia. apply q_step. apply (q_bind (ISRC K) any); [destruct (has_bit _ _); [apply q_null|now apply q_ret]|]. intros w2 _.
    rewrite has_bit_ok by lia. apply q_step. apply (q_bind (ISRC K) any); [destruct (has_bit _ _); [apply q_null|now apply q_ret]|]. intros w3 _.
    rewrite has_bit_ok by lia. apply q_step. destruct (has_bit _ _); [|now apply q_ret].
    apply (q_bind (ISRC K) bytes_ok); [apply q_exact|]. intros ? _. now apply q_ret.
  Qed.
End Header.

(** ** The window *)
Definition IB (b : circ) : Prop :=
  (0 < List.length (cb_data b))%nat /\ N.of_nat (List.length (cb_data b)) <= 65535 /\ (cb_idx b < List.length (cb_data b))%nat
  /\ cb_valid b <= N.of_nat (List.length (cb_data b)).

Lemma upd_len {A} (l : list A) : forall i a, List.length (upd l i a) = List.length l.
Proof. induction l; intros [|i] x; cbn [upd List.length]; auto. Qed.
Lemma set_len {A} (l : list A) i a l' : set_idx l i a = Ok l' -> List.length l' = List.length l.
Proof. unfold set_idx. destruct (Nat.ltb _ _); [|discriminate]. intro E. injection E as <-. apply upd_len. Qed.

Section Window.
  Context (bd : build).

  Lemma push_same b v : IB b -> mc_cb_push bd b v = cb_push b v /\ (forall b', cb_push b v = Ok b' -> IB b').
  Proof.
    intros (H0 & H1 & H2 & H3). unfold mc_cb_push, cb_push. destruct (set_idx (cb_data b) (cb_idx b) v) as [d| | |] eqn:ES; cbn [obind]; [|now split..].
    apply set_len in ES. rewrite add_ok by width. cbn [obind]. rewrite ES.
    replace (N.to_nat (N.of_nat (cb_idx b) + 1)) with (cb_idx b + 1)%nat by lia.
    destruct (Nat.eqb_spec (List.length (cb_data b)) 0); [lia|]. cbn [obind].
    pose proof (Nat.mod_upper_bound (cb_idx b + 1) (List.length (cb_data b)) ltac:(lia)).
    destruct (N.ltb_spec (cb_valid b) (N.of_nat (List.length (cb_data b)))).
    - destruct (N.eqb_spec (cb_valid b) 65535); [lia|]. rewrite add_ok by width. split; [reflexivity|].
      intros b' E. injection E as <-. unfold IB. cbn [cb_data cb_idx cb_valid]. rewrite ES. repeat split; auto; lia.
    - split; [reflexivity|]. intros b' E. injection E as <-. unfold IB. cbn [cb_data cb_idx cb_valid]. rewrite ES. repeat split; auto; lia.
  Qed.

  Lemma extend_same val : forall b, IB b -> mc_cb_extend bd b val = cb_extend b val /\ (forall b', cb_extend b val = Ok b' -> IB b').
  Proof.
    induction val as [|x val IH]; intros b HI; cbn [mc_cb_extend cb_extend]; [split; [reflexivity|]; now intros ? [= <-]|].
    destruct (push_same b x HI) as [-> H]. destruct (cb_push b x) as [b'| | |]; cbn [obind]; [|now split..]. apply IH. now apply H.
  Qed.

  Definition IBS (st : circ * sink) : Prop := IB (fst st).

  Lemma q_copy_loop n : forall rf, (rf < N.to_nat 70000)%nat -> simq IBS any (mc_copy_loop bd n rf) (cb_copy_loop n rf).
  Proof.
    induction n as [|n IH]; intros rf HR; cbn [mc_copy_loop cb_copy_loop]; [now apply q_ret|].
    intros [b out] HI. unfold IBS in HI. cbn [fst] in HI. pose proof HI as (H0 & H1 & H2 & H3).
    destruct (get_idx (cb_data b) rf) as [x| | |] eqn:EG; cbn [obind]; [|now split..].
    rewrite add_ok by width. cbn [obind].
    destruct (Nat.eqb_spec (List.length (cb_data b)) 0); [lia|]. replace (N.to_nat (N.of_nat rf + 1)) with (rf + 1)%nat by lia.
    assert (HW : forall o : outcome unit * sink, match fst o with Ok _ | Err _ => True | _ => False end -> o = write_all [x] out ->
      (match o with (Ok _, out') => match mc_cb_push bd b x with Ok b' => mc_copy_loop bd n ((rf + 1) mod List.length (cb_data b)) (b', out')
         | Err e => (Err e, (b, out')) | Panic m => (Panic m, (b, out')) | Diverge => (Diverge, (b, out')) end
       | (Err e, out') => (Err e, (b, out')) | (Panic m, out') => (Panic m, (b, out')) | (Diverge, out') => (Diverge, (b, out')) end)
      = (match o with (Ok _, out') => match cb_push b x with Ok b' => cb_copy_loop n ((rf + 1) mod List.length (cb_data b)) (b', out')
         | Err e => (Err e, (b, out')) | Panic m => (Panic m, (b, out')) | Diverge => (Diverge, (b, out')) end
       | (Err e, out') => (Err e, (b, out')) | (Panic m, out') => (Panic m, (b, out')) | (Diverge, out') => (Diverge, (b, out')) end)
      /\ match fst (match o with (Ok _, out') => match cb_push b x with Ok b' => cb_copy_loop n ((rf + 1) mod List.length (cb_data b)) (b', out')
         | Err e => (Err e, (b, out')) | Panic m => (Panic m, (b, out')) | Diverge => (Diverge, (b, out')) end
       | (Err e, out') => (Err e, (b, out')) | (Panic m, out') => (Panic m, (b, out')) | (Diverge, out') => (Diverge, (b, out')) end) with
         | Ok a => IBS (snd (match o with (Ok _, out') => match cb_push b x with Ok b' => cb_copy_loop n ((rf + 1) mod List.length (cb_data b)) (b', out')
         | Err e => (Err e, (b, out')) | Panic m => (Panic m, (b, out')) | Diverge => (Diverge, (b, out')) end
       | (Err e, out') => (Err e, (b, out')) | (Panic m, out') => (Panic m, (b, out')) | (Diverge, out') => (Diverge, (b, out')) end)) /\ any a
         | Err _ => IBS (snd (match o with (Ok _, out') => match cb_push b x with Ok b' => cb_copy_loop n ((rf + 1) mod List.length (cb_data b)) (b', out')
         | Err e => (Err e, (b, out')) | Panic m => (Panic m, (b, out')) | Diverge => (Diverge, (b, out')) end
       | (Err e, out') => (Err e, (b, out')) | (Panic m, out') => (Panic m, (b, out')) | (Diverge, out') => (Diverge, (b, out')) end))
         | _ => True end).
    { intros [o out'] Ho _. cbn [fst] in Ho. destruct o; try contradiction; [|cbn; split; [reflexivity|exact HI]].
      destruct (push_same b x HI) as [-> HP]. destruct (cb_push b x) as [b'| | |] eqn:EP; [|cbn; split; [reflexivity|exact HI || exact I]..].
      apply IH; [|now apply (HP b')]. pose proof (Nat.mod_upper_bound (rf + 1) (List.length (cb_data b)) ltac:(lia)). lia. }
    apply (HW (write_all [x] out)); [|reflexivity]. unfold write_all. destruct (room out); [destruct (Nat.leb _ _)|]; exact I.
  Qed.

  Lemma q_copy dist len : simq IBS any (mc_copy bd dist len) (cb_copy dist len).
  Proof.
    intros [b out] HI. unfold mc_copy, cb_copy. cbn [fst]. destruct ((0 <? dist) && (dist <=? cb_valid b)); [|now split].
    pose proof HI as (H0 & H1 & H2 & H3). cbn [fst] in H0, H1, H2, H3. unfold bind, lift, cb_read_from.
    destruct (N.eqb_spec (N.of_nat (List.length (cb_data b))) 0); [lia|]. apply q_copy_loop; [|exact HI].
    match goal with |- (N.to_nat (?a mod ?b) < _)%nat => pose proof (N.mod_lt a b ltac:(lia)) end. lia.
  Qed.

  Lemma q_codes codes : Forall run_fits codes -> simq IBS any (mc_decompressed_codes bd codes) (decompressed_codes codes).
  Proof.
    induction 1 as [|c codes Hc _ IH]; cbn [mc_decompressed_codes decompressed_codes]; [now apply q_ret|]. destruct c as [b|r].
    - apply (q_bind IBS any); [|intros _ _; exact IH]. intros [d out] HI. cbn [fst snd]. destruct (push_same d b HI) as [-> HP].
      destruct (cb_push d b) as [d'| | |]; [|now split..]. split; [reflexivity|]. pose proof (HP _ eq_refl).
      destruct (write_all [b] out) as [[] out']; cbn [fst snd]; unfold any; auto.
    - cbn [run_fits] in Hc. unfold mc_run. step. apply (q_bind IBS any); [apply q_copy|]. intros _ _. exact IH.
  Qed.

  Lemma q_block b : block_runs b -> simq IBS any (mc_decompressed_block bd b) (decompressed_block b).
  Proof.
    destruct b as [data|codes|trees codes]; cbn [block_runs mc_decompressed_block decompressed_block]; intro H; [|now apply q_codes..].
    intros [d out] HI. cbn [fst snd]. destruct (extend_same data d HI) as [-> HP]. destruct (cb_extend d data) as [d'| | |]; [|now split..].
    split; [reflexivity|]. pose proof (HP _ eq_refl). destruct (write_all data out) as [[] out']; cbn [fst snd]; unfold any; auto.
  Qed.
End Window.
