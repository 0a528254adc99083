(** Lemmas: on a prefix of the input the code does what it does on the whole, or reaches the end of the prefix. *)
From Verif Require Import Base M_bit M_lib M_code_tree M_huffman M_circles M_gzip M_parse M_serialise M_rezippers M_dump.
From Coq Require Import ZArith ZifyBool ZifyNat ZifyN.
Ltac Zify.zify_post_hook ::= Z.div_mod_to_equations.
Local Open Scope N_scope.
Local Open Scope model_scope.

(** The first ends at the error [e], or runs out of fuel, or both have the same result and related states. *)
Definition pre (e : errkind) {S1 S2 A} (P : S1 -> S2 -> Prop) (m1 : M S1 A) (m2 : M S2 A) : Prop :=
  forall s1 s2, P s1 s2 -> fst (m1 s1) = Err (EIo e) \/ fst (m1 s1) = Diverge \/ fst (m1 s1) = fst (m2 s2) /\ P (snd (m1 s1)) (snd (m2 s2)).

Lemma pre_lift e {S1 S2 A} P (o : outcome A) : pre e (S1 := S1) (S2 := S2) P (lift o) (lift o).
Proof. intros s1 s2 H. right; right. now split. Qed.
Lemma pre_ret e {S1 S2 A} P (a : A) : pre e (S1 := S1) (S2 := S2) P (ret a) (ret a).
Proof. exact (pre_lift e P (Ok a)). Qed.
Lemma pre_fail e {S1 S2 A} P m : pre e (S1 := S1) (S2 := S2) (A := A) P (fail m) (fail m).
Proof. exact (pre_lift e P (Err (EMsg m))). Qed.
Lemma pre_panic e {S1 S2 A} P m : pre e (S1 := S1) (S2 := S2) (A := A) P (panic m) (panic m).
Proof. exact (pre_lift e P (Panic m)). Qed.
Lemma pre_bind e {S1 S2 A B} (P : S1 -> S2 -> Prop) (m1 : M S1 A) m2 (k1 : A -> M S1 B) k2 :
  pre e P m1 m2 -> (forall a, pre e P (k1 a) (k2 a)) -> pre e P (bind m1 k1) (bind m2 k2).
Proof.
  intros H1 H2 s1 s2 H. unfold bind. destruct (H1 s1 s2 H) as [E|[E|[E HP]]].
  - destruct (m1 s1) as [o1 t1]. cbn [fst] in E. subst o1. now left.
  - destruct (m1 s1) as [o1 t1]. cbn [fst] in E. subst o1. now right; left.
  - destruct (m1 s1) as [o1 t1], (m2 s2) as [o2 t2]. cbn [fst snd] in *. subst o2. destruct o1; [exact (H2 a t1 t2 HP)|right; right; split; [reflexivity|exact HP]..].
Qed.
Lemma pre_ensure e {S1 S2} P b m : pre e (S1 := S1) (S2 := S2) P (ensure b m) (ensure b m).
Proof. destruct b; [apply pre_ret|apply pre_fail]. Qed.
Lemma pre_assert e {S1 S2} P b m : pre e (S1 := S1) (S2 := S2) P (assert_ b m) (assert_ b m).
Proof. destruct b; [apply pre_ret|apply pre_panic]. Qed.
Create HintDb pre.
#[export] Hint Resolve pre_ret pre_lift pre_fail pre_panic pre_ensure pre_assert : pre.
Ltac pre := repeat lazymatch goal with |- pre _ _ (bind _ _) (bind _ _) => apply pre_bind; [|intro] | |- _ => solve [auto with pre] end.

(** ** Code over any bit source *)
Section Bits.
  Context (e : errkind) {S1 S2 : Type} (P : S1 -> S2 -> Prop) (rb1 : M S1 bool) (rb2 : M S2 bool) (HB : pre e P rb1 rb2).

  Lemma pre_read_part_loop is : forall res, pre e P (read_part_loop rb1 is res) (read_part_loop rb2 is res).
  Proof. induction is as [|i is IH]; intros res; cbn [read_part_loop]; [pre|]. apply pre_bind; [exact HB|]. intro b. apply IH. Qed.
  Lemma pre_read_part n : pre e P (read_part rb1 n) (read_part rb2 n).
  Proof. unfold read_part. apply pre_bind; [pre|]. intros _. apply pre_read_part_loop. Qed.

  Lemma pre_node n : pre e P (decode_node rb1 n) (decode_node rb2 n).
  Proof. induction n; cbn [decode_node]; [pre|]. apply pre_bind; [exact HB|]. intros []; assumption. Qed.
  Lemma pre_decode t : pre e P (decode_symbol rb1 t) (decode_symbol rb2 t).
  Proof. unfold decode_symbol. apply pre_bind; [exact HB|]. intros []; apply pre_node. Qed.

  Lemma pre_cl is : forall lens, pre e P (read_cl_loop rb1 is lens) (read_cl_loop rb2 is lens).
  Proof. induction is as [|i is IH]; intros lens; cbn [read_cl_loop]; [pre|]. apply pre_bind; [apply pre_read_part|]. intro v. apply pre_bind; [pre|]. intro. apply IH. Qed.

  Lemma pre_lens t len : forall fuel i rv rl cl, pre e P (read_lens_loop rb1 fuel t len i rv rl cl) (read_lens_loop rb2 fuel t len i rv rl cl).
  Proof.
    induction fuel as [|fuel IH]; intros i rv rl cl; cbn [read_lens_loop]; [pre|].
    assert (HC : forall i rv rl cl, pre e P (if Nat.leb len i then ret (rl, cl) else read_lens_loop rb1 fuel t len i rv rl cl)
      (if Nat.leb len i then ret (rl, cl) else read_lens_loop rb2 fuel t len i rv rl cl)).
    { intros i' rv' rl' cl'. destruct (Nat.leb len i'); [pre|apply IH]. }
    destruct (0 <? rl).
    - destruct rv; [|pre]. apply pre_bind; [pre|]. intro. apply HC.
    - apply pre_bind; [apply pre_decode|]. intro sym. destruct (sym <=? 15); [apply pre_bind; [pre|]; intro; apply HC|].
      destruct (sym =? 16); [apply pre_bind; [pre|]; intros _; apply pre_bind; [apply pre_read_part|]; intro; apply HC|].
      destruct (sym =? 17); [apply pre_bind; [apply pre_read_part|]; intro; apply HC|].
      destruct (sym =? 18); [apply pre_bind; [apply pre_read_part|]; intro; apply HC|]. pre.
  Qed.

  Lemma pre_read_codes : pre e P (read_codes rb1) (read_codes rb2).
  Proof.
    unfold read_codes. do 3 (apply pre_bind; [apply pre_read_part|]; intro). do 4 (apply pre_bind; [apply pre_read_part|]; intro; apply pre_bind; [pre|]; intro).
    apply pre_bind; [apply pre_cl|]. intro. apply pre_bind; [pre|]. intro. apply pre_bind; [apply pre_lens|]. intros [run_len code_lens].
    apply pre_bind; [pre|]. intros _. apply pre_bind; [pre|]. intro. destruct (match skipn _ code_lens with [x] => 0 =? x | _ => false end); pre.
  Qed.

  Lemma pre_run_length sym : pre e P (decode_run_length rb1 sym) (decode_run_length rb2 sym).
  Proof.
    unfold decode_run_length. apply pre_bind; [pre|]. intros _. destruct (sym <=? 264); [pre|]. destruct (sym <=? 284).
    - apply pre_bind; [pre|]. intros _. apply pre_bind; [apply pre_read_part|]. intro. pre.
    - destruct (sym =? 285); pre.
  Qed.
  Lemma pre_distance sym : pre e P (decode_distance rb1 sym) (decode_distance rb2 sym).
  Proof.
    unfold decode_distance. destruct (sym <=? 3); [pre|]. destruct (sym <=? 29); [apply pre_bind; [apply pre_read_part|]; intro; pre|]. destruct (sym <=? 31); pre.
  Qed.

  Lemma pre_scan l d : forall f1 f2, (f1 <= f2)%nat -> pre e P (scan_loop rb1 f1 l d) (scan_loop rb2 f2 l d).
  Proof.
    induction f1 as [|f1 IH]; intros f2 F; [intros s1 s2 _; right; left; reflexivity|]. destruct f2 as [|f2]; [lia|]. assert (F' : (f1 <= f2)%nat) by lia. specialize (IH f2 F'). clear F F'.
    cbn [scan_loop]. apply pre_bind; [apply pre_decode|]. intro sym. destruct (sym =? 256); [pre|].
    destruct (sym <? 256); [apply pre_bind; [exact IH|]; intro; pre|]. apply pre_bind; [apply pre_run_length|]. intro run.
    apply pre_bind; [destruct d; [apply pre_decode|pre]|]. intro ds. apply pre_bind; [apply pre_distance|]. intro dist. apply pre_bind; [pre|]. intros _.
    apply pre_bind; [pre|]. intro r. apply pre_bind; [exact IH|]. intro. pre.
  Qed.

  Definition beside (a : S1 * bitvec) (b : S2 * bitvec) : Prop := P (fst a) (fst b) /\ snd a = snd b.
  Lemma pre_collect : pre e beside (bc_read_bit rb1) (bc_read_bit rb2).
  Proof.
    intros [s1 v1] [s2 v2] [H E]. cbn [fst snd] in *. subst v2. unfold bc_read_bit. cbn [fst snd]. destruct (HB s1 s2 H) as [E|[E|[E HP]]].
    - left. destruct (rb1 s1) as [o1 t1]. cbn [fst] in E. subst o1. reflexivity.
    - right; left. destruct (rb1 s1) as [o1 t1]. cbn [fst] in E. subst o1. reflexivity.
    - right; right. destruct (rb1 s1) as [o1 t1], (rb2 s2) as [o2 t2]. cbn [fst snd] in *. subst o2. destruct o1; [destruct (bv_push v1 a)|..]; split; try reflexivity; split; cbn; auto.
  Qed.
End Bits.

(** ** Readers *)
Section Prefix.
  Context (e e' : errkind) (more : list N).

  (** The second source has more to come. *)
  Definition src_rel (a b : source) : Prop := rest b = rest a ++ more /\ at_end a = e /\ at_end b = e'.
  Definition bit_rel (a b : bit_reader) : Prop :=
    src_rel (br_inner a) (br_inner b) /\ br_current a = br_current b /\ br_remaining a = br_remaining b /\ br_track a = br_track b.

  Ltac rel H := destruct H as (?HQ & ?EC & ?ER & ?ET).

  Lemma pre_exact n : pre e src_rel (read_exact n) (read_exact n).
  Proof.
    intros a b [H [E E']]. unfold read_exact. destruct (Nat.leb_spec n (List.length (rest a))) as [L|L]; [|left; cbn; now rewrite E].
    right; right. rewrite H, app_length. replace (Nat.leb n _) with true by lia. cbn [fst snd]. split.
    - rewrite firstn_app. replace (n - _)%nat with 0%nat by lia. cbn [firstn]. now rewrite app_nil_r.
    - split; cbn [rest at_end]; [|split; assumption]. rewrite skipn_app. replace (n - _)%nat with 0%nat by lia. reflexivity.
  Qed.

  Lemma pre_position : pre e bit_rel br_position br_position.
  Proof. intros a b H. assert (H' := H). rel H. right; right. unfold br_position. rewrite ER. destruct (br_remaining b <=? 7); split; auto; exact H'. Qed.

  Lemma pre_refill : pre e bit_rel br_refill br_refill.
  Proof.
    intros a b H. assert (H' := H). rel H. unfold br_refill. rewrite ER. destruct (0 =? br_remaining b); [|right; right; split; [reflexivity|exact H']].
    destruct (pre_exact 1 _ _ HQ) as [E|[E|[E HQ']]].
    - left. destruct (read_exact 1 (br_inner a)) as [o1 t1]. cbn [fst] in E. subst o1. reflexivity.
    - right; left. destruct (read_exact 1 (br_inner a)) as [o1 t1]. cbn [fst] in E. subst o1. reflexivity.
    - right; right.
      assert (K : forall m t, read_exact 1 (br_inner b) <> (Panic m, t)) by (intros m t; unfold read_exact; destruct (Nat.leb _ _); discriminate).
      assert (K2 : forall t, read_exact 1 (br_inner b) <> (Diverge, t)) by (intros t; unfold read_exact; destruct (Nat.leb _ _); discriminate).
      destruct (read_exact 1 (br_inner a)) as [o1 t1], (read_exact 1 (br_inner b)) as [o2 t2]. cbn [fst snd] in *. subst o2.
      destruct o1; try (now destruct (K m t2)); try (now destruct (K2 t2)); split; try reflexivity; unfold bit_rel; cbn; auto.
  Qed.

  Lemma pre_read_bit : pre e bit_rel br_read_bit br_read_bit.
  Proof.
    unfold br_read_bit. apply pre_bind; [exact pre_refill|]. intros _ a b H. assert (H' := H). rel H. cbn zeta. right; right. rewrite ER, EC, ET.
    destruct (br_track b) as [v|]; [destruct (bv_push v _)|]; cbn; split; try reflexivity; try exact H'; unfold bit_rel; cbn; auto.
  Qed.

  Lemma pre_untracked : pre e bit_rel br_assert_untracked br_assert_untracked.
  Proof. intros a b H. assert (H' := H). rel H. right; right. unfold br_assert_untracked. rewrite ET. destruct (br_track b); split; auto. Qed.

  Lemma pre_align_loop : forall fuel, pre e bit_rel (br_align_loop fuel) (br_align_loop fuel).
  Proof.
    induction fuel as [|fuel IH]; cbn [br_align_loop]; [pre|]. apply pre_bind; [exact pre_position|]. intro p. destruct (0 =? p); [pre|].
    apply pre_bind; [exact pre_read_bit|]. intro. apply pre_bind; [pre|]. intros _. exact IH.
  Qed.
  Lemma pre_align : pre e bit_rel br_align br_align.
  Proof. unfold br_align. apply pre_bind; [exact pre_untracked|]. intros _. apply pre_align_loop. Qed.

  Lemma pre_inner n : pre e bit_rel (br_inner_read_exact n) (br_inner_read_exact n).
  Proof.
    intros a b H. rel H. unfold br_inner_read_exact, zoom. destruct (pre_exact n _ _ HQ) as [E|[E|[E HQ']]].
    - left. destruct (read_exact n (br_inner a)) as [o1 t1]. exact E.
    - right; left. destruct (read_exact n (br_inner a)) as [o1 t1]. exact E.
    - right; right. destruct (read_exact n (br_inner a)) as [o1 t1], (read_exact n (br_inner b)) as [o2 t2]. cbn [fst snd] in *. subst o2. split; [reflexivity|]. unfold bit_rel. cbn. auto.
  Qed.
  Lemma pre_aligned : pre e bit_rel br_assert_aligned br_assert_aligned.
  Proof. unfold br_assert_aligned. apply pre_bind; [exact pre_position|]. intro. pre. Qed.
  Lemma pre_u16 : pre e bit_rel br_read_aligned_u16 br_read_aligned_u16.
  Proof.
    unfold br_read_aligned_u16. apply pre_bind; [exact pre_aligned|]. intros _. apply pre_bind; [exact pre_untracked|]. intros _.
    apply pre_bind; [apply pre_inner|]. intro. pre.
  Qed.
  Lemma pre_length_prefixed : pre e bit_rel br_read_length_prefixed br_read_length_prefixed.
  Proof.
    unfold br_read_length_prefixed. apply pre_bind; [exact pre_aligned|]. intros _. apply pre_bind; [exact pre_untracked|]. intros _.
    apply pre_bind; [exact pre_u16|]. intro. apply pre_bind; [exact pre_u16|]. intro. apply pre_bind; [pre|]. intros _. apply pre_inner.
  Qed.

  Lemma pre_scan_data l d : pre e bit_rel (scan_huffman_data l d) (scan_huffman_data l d).
  Proof.
    intros a b H. unfold scan_huffman_data. apply (pre_scan e bit_rel _ _ pre_read_bit); [|exact H].
    destruct H as ((H & _) & _ & ER & _). unfold br_bits_left. rewrite H, app_length, ER. lia.
  Qed.

  Lemma pre_codes_collected : pre e bit_rel read_codes_collected read_codes_collected.
  Proof.
    intros a b H. unfold read_codes_collected.
    destruct (pre_read_codes e _ _ _ (pre_collect e bit_rel _ _ pre_read_bit) (a, bv_new) (b, bv_new) (conj H eq_refl)) as [E|[E|[E [HP HV]]]].
    - left. destruct (read_codes (bc_read_bit br_read_bit) (a, bv_new)) as [o1 [t1 v1]]. cbn [fst] in E. subst o1. reflexivity.
    - right; left. destruct (read_codes (bc_read_bit br_read_bit) (a, bv_new)) as [o1 [t1 v1]]. cbn [fst] in E. subst o1. reflexivity.
    - right; right. destruct (read_codes (bc_read_bit br_read_bit) (a, bv_new)) as [o1 [t1 v1]], (read_codes (bc_read_bit br_read_bit) (b, bv_new)) as [o2 [t2 v2]].
      cbn [fst snd] in *. subst o2 v2. destruct o1; split; auto.
  Qed.

  Lemma pre_read_block : pre e bit_rel read_block read_block.
  Proof.
    unfold read_block. apply pre_bind; [apply pre_read_part, pre_read_bit|]. intro ty. destruct (ty =? 0).
    { apply pre_bind; [exact pre_align|]. intros _. apply pre_bind; [exact pre_length_prefixed|]. intro. pre. }
    destruct (ty =? 1).
    { apply pre_bind; [pre|]. intro. apply pre_bind; [pre|]. intro. apply pre_bind; [apply pre_scan_data|]. intro. pre. }
    destruct (ty =? 2).
    { apply pre_bind; [apply pre_codes_collected|]. intros [[l d] trees]. apply pre_bind; [apply pre_scan_data|]. intro. pre. }
    destruct (ty =? 3); pre.
  Qed.

  Definition iter_rel (a b : block_iter) : Prop := bit_rel (bi_inner a) (bi_inner b) /\ bi_end a = bi_end b.

  Lemma pre_next : pre e iter_rel bi_next bi_next.
  Proof.
    intros a b [H EE]. unfold bi_next. rewrite EE. destruct (bi_end b) eqn:EB.
    - destruct (pre_align _ _ H) as [E|[E|[E HP]]]; [left|right; left|right; right].
      + destruct (br_align (bi_inner a)) as [o1 t1]. cbn [fst] in E. subst o1. reflexivity.
      + destruct (br_align (bi_inner a)) as [o1 t1]. cbn [fst] in E. subst o1. reflexivity.
      + destruct (br_align (bi_inner a)) as [o1 t1], (br_align (bi_inner b)) as [o2 t2]. cbn [fst snd] in *. subst o2.
        destruct o1; split; try reflexivity; split; cbn; auto.
    - destruct (pre_read_bit _ _ H) as [E|[E|[E HP]]].
      + left. destruct (br_read_bit (bi_inner a)) as [o1 t1]. cbn [fst] in E. subst o1. reflexivity.
      + right; left. destruct (br_read_bit (bi_inner a)) as [o1 t1]. cbn [fst] in E. subst o1. reflexivity.
      + destruct (br_read_bit (bi_inner a)) as [o1 t1], (br_read_bit (bi_inner b)) as [o2 t2]. cbn [fst snd] in *. subst o2.
        destruct o1; try (right; right; split; [reflexivity|split; cbn; auto]; fail).
        destruct (pre_read_block _ _ HP) as [E|[E|[E HP']]]; [left|right; left|right; right].
        * destruct (read_block t1) as [o1 u1]. cbn [fst] in E. subst o1. reflexivity.
        * destruct (read_block t1) as [o1 u1]. cbn [fst] in E. subst o1. reflexivity.
        * destruct (read_block t1) as [o1 u1], (read_block t2) as [o2 u2]. cbn [fst snd] in *. subst o2. destruct o1; split; try reflexivity; split; cbn; auto.
  Qed.

  Lemma iter_new a b : src_rel a b -> iter_rel (parse_deflate a) (parse_deflate b).
  Proof. intro H. repeat split; apply H. Qed.

  Lemma pre_drain : forall f1 f2, (f1 <= f2)%nat -> pre e iter_rel (bi_drain f1) (bi_drain f2).
  Proof.
    induction f1 as [|f1 IH]; intros f2 F; [intros s1 s2 _; right; left; reflexivity|]. destruct f2 as [|f2]; [lia|]. cbn [bi_drain].
    apply pre_bind; [exact pre_next|]. intros [b|]; [|pre]. apply pre_bind; [apply IH; lia|]. intro. pre.
  Qed.

  Lemma pre_null : forall f1 f2, (f1 <= f2)%nat -> forall into, pre e src_rel (read_null_terminated_loop f1 into) (read_null_terminated_loop f2 into).
  Proof.
    induction f1 as [|f1 IH]; intros f2 F into; [intros s1 s2 _; right; left; reflexivity|]. destruct f2 as [|f2]; [lia|]. cbn [read_null_terminated_loop].
    apply pre_bind; [apply pre_exact|]. intro buf. cbn zeta. destruct (0 =? nth 0 buf 0); [pre|apply IH; lia].
  Qed.
  Lemma pre_header : pre e src_rel discard_header discard_header.
  Proof.
    unfold discard_header. apply pre_bind; [apply pre_exact|]. intro h. cbn zeta. do 3 (apply pre_bind; [pre|]; intros _).
    assert (HN : forall into, pre e src_rel (read_null_terminated into) (read_null_terminated into)).
    { intros into r s H. unfold read_null_terminated. apply pre_null; [|exact H]. destruct H as [H _]. rewrite H, app_length. lia. }
    apply pre_bind.
    { destruct (has_bit _ 2); [|pre]. unfold read_extra. apply pre_bind; [apply pre_exact|]. intro. apply pre_bind; [apply pre_exact|]. intro. pre. }
    intro w1. apply pre_bind; [destruct (has_bit _ 3); [apply HN|pre]|]. intro w2. apply pre_bind; [destruct (has_bit _ 4); [apply HN|pre]|]. intro w3.
    destruct (has_bit _ 1); [|pre]. unfold read_hcrc. apply pre_bind; [apply pre_exact|]. intro. pre.
  Qed.
End Prefix.
