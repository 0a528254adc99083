(** Lemmas: the code on a real reader or writer does what it does on a [source] or [sink]. *)
From Verif Require Import Base M_bit M_lib M_code_tree M_huffman M_circles M_gzip M_parse M_serialise M_trace M_filter M_rezippers M_dump M_io L_bits.
From Coq Require Import ZArith ZifyBool ZifyNat ZifyN.
Ltac Zify.zify_post_hook ::= Z.div_mod_to_equations.
Local Open Scope N_scope.
Local Open Scope model_scope.

(** The same result, and related states. *)
Definition sim {S1 S2 A} (P : S1 -> S2 -> Prop) (m1 : M S1 A) (m2 : M S2 A) : Prop :=
  forall s1 s2, P s1 s2 -> fst (m1 s1) = fst (m2 s2) /\ P (snd (m1 s1)) (snd (m2 s2)).

Lemma sim_ret {S1 S2 A} P (a : A) : sim (S1 := S1) (S2 := S2) P (ret a) (ret a).
Proof. intros s1 s2 H. now split. Qed.
Lemma sim_lift {S1 S2 A} P (o : outcome A) : sim (S1 := S1) (S2 := S2) P (lift o) (lift o).
Proof. intros s1 s2 H. now split. Qed.
Lemma sim_fail {S1 S2 A} P m : sim (S1 := S1) (S2 := S2) (A := A) P (fail m) (fail m).
Proof. intros s1 s2 H. now split. Qed.
Lemma sim_panic {S1 S2 A} P m : sim (S1 := S1) (S2 := S2) (A := A) P (panic m) (panic m).
Proof. intros s1 s2 H. now split. Qed.
Lemma sim_bind {S1 S2 A B} (P : S1 -> S2 -> Prop) (m1 : M S1 A) m2 (k1 : A -> M S1 B) k2 :
  sim P m1 m2 -> (forall a, sim P (k1 a) (k2 a)) -> sim P (bind m1 k1) (bind m2 k2).
Proof.
  intros H1 H2 s1 s2 H. destruct (H1 s1 s2 H) as [E HP]. unfold bind. destruct (m1 s1) as [o1 t1], (m2 s2) as [o2 t2]. cbn [fst snd] in *. subst o2.
  destruct o1; [exact (H2 a t1 t2 HP)|split; [reflexivity|exact HP]..].
Qed.
Lemma sim_ensure {S1 S2} P b m : sim (S1 := S1) (S2 := S2) P (ensure b m) (ensure b m).
Proof. destruct b; [apply sim_ret|apply sim_fail]. Qed.
Lemma sim_assert {S1 S2} P b m : sim (S1 := S1) (S2 := S2) P (assert_ b m) (assert_ b m).
Proof. destruct b; [apply sim_ret|apply sim_panic]. Qed.
Create HintDb sim.
#[export] Hint Resolve sim_ret sim_lift sim_fail sim_panic sim_ensure sim_assert : sim.
Ltac sim := repeat lazymatch goal with |- sim _ (bind _ _) (bind _ _) => apply sim_bind; [|intro] | |- _ => solve [auto with sim] end.

(** ** Code over any bit source *)
Section Bits.
  Context {S1 S2 : Type} (P : S1 -> S2 -> Prop) (rb1 : M S1 bool) (rb2 : M S2 bool) (HB : sim P rb1 rb2).

  Lemma sim_read_part_loop is : forall res, sim P (read_part_loop rb1 is res) (read_part_loop rb2 is res).
  Proof. induction is as [|i is IH]; intros res; cbn [read_part_loop]; [sim|]. apply sim_bind; [exact HB|]. intro b. apply IH. Qed.
  Lemma sim_read_part n : sim P (read_part rb1 n) (read_part rb2 n).
  Proof. unfold read_part. apply sim_bind; [sim|]. intros _. apply sim_read_part_loop. Qed.

  Lemma sim_node n : sim P (decode_node rb1 n) (decode_node rb2 n).
  Proof. induction n; cbn [decode_node]; [sim|]. apply sim_bind; [exact HB|]. intros []; assumption. Qed.
  Lemma sim_decode t : sim P (decode_symbol rb1 t) (decode_symbol rb2 t).
  Proof. unfold decode_symbol. apply sim_bind; [exact HB|]. intros []; apply sim_node. Qed.

  Lemma sim_cl is : forall lens, sim P (read_cl_loop rb1 is lens) (read_cl_loop rb2 is lens).
  Proof. induction is as [|i is IH]; intros lens; cbn [read_cl_loop]; [sim|]. apply sim_bind; [apply sim_read_part|]. intro v. apply sim_bind; [sim|]. intro. apply IH. Qed.

  Lemma sim_lens t len : forall fuel i rv rl cl, sim P (read_lens_loop rb1 fuel t len i rv rl cl) (read_lens_loop rb2 fuel t len i rv rl cl).
  Proof.
    induction fuel as [|fuel IH]; intros i rv rl cl; cbn [read_lens_loop]; [sim|].
    assert (HC : forall i rv rl cl, sim P (if Nat.leb len i then ret (rl, cl) else read_lens_loop rb1 fuel t len i rv rl cl)
      (if Nat.leb len i then ret (rl, cl) else read_lens_loop rb2 fuel t len i rv rl cl)).
    { intros i' rv' rl' cl'. destruct (Nat.leb len i'); [sim|apply IH]. }
    destruct (0 <? rl).
    - destruct rv; [|sim]. apply sim_bind; [sim|]. intro. apply HC.
    - apply sim_bind; [apply sim_decode|]. intro sym. destruct (sym <=? 15); [apply sim_bind; [sim|]; intro; apply HC|].
      destruct (sym =? 16); [apply sim_bind; [sim|]; intros _; apply sim_bind; [apply sim_read_part|]; intro; apply HC|].
      destruct (sym =? 17); [apply sim_bind; [apply sim_read_part|]; intro; apply HC|].
      destruct (sym =? 18); [apply sim_bind; [apply sim_read_part|]; intro; apply HC|]. sim.
  Qed.

  Lemma sim_read_codes : sim P (read_codes rb1) (read_codes rb2).
  Proof.
    unfold read_codes. do 3 (apply sim_bind; [apply sim_read_part|]; intro). do 4 (apply sim_bind; [apply sim_read_part|]; intro; apply sim_bind; [sim|]; intro).
    apply sim_bind; [apply sim_cl|]. intro. apply sim_bind; [sim|]. intro. apply sim_bind; [apply sim_lens|]. intros [run_len code_lens].
    apply sim_bind; [sim|]. intros _. apply sim_bind; [sim|]. intro. destruct (match skipn _ code_lens with [x] => 0 =? x | _ => false end); sim.
  Qed.

  Lemma sim_run_length sym : sim P (decode_run_length rb1 sym) (decode_run_length rb2 sym).
  Proof.
    unfold decode_run_length. apply sim_bind; [sim|]. intros _. destruct (sym <=? 264); [sim|]. destruct (sym <=? 284).
    - apply sim_bind; [sim|]. intros _. apply sim_bind; [apply sim_read_part|]. intro. sim.
    - destruct (sym =? 285); sim.
  Qed.
  Lemma sim_distance sym : sim P (decode_distance rb1 sym) (decode_distance rb2 sym).
  Proof.
    unfold decode_distance. destruct (sym <=? 3); [sim|]. destruct (sym <=? 29); [apply sim_bind; [apply sim_read_part|]; intro; sim|]. destruct (sym <=? 31); sim.
  Qed.

  Lemma sim_scan l d : forall fuel, sim P (scan_loop rb1 fuel l d) (scan_loop rb2 fuel l d).
  Proof.
    induction fuel as [|fuel IH]; cbn [scan_loop]; [sim|]. apply sim_bind; [apply sim_decode|]. intro sym. destruct (sym =? 256); [sim|].
    destruct (sym <? 256); [apply sim_bind; [exact IH|]; intro; sim|]. apply sim_bind; [apply sim_run_length|]. intro run.
    apply sim_bind; [destruct d; [apply sim_decode|sim]|]. intro ds. apply sim_bind; [apply sim_distance|]. intro dist. apply sim_bind; [sim|]. intros _.
    apply sim_bind; [sim|]. intro r. apply sim_bind; [exact IH|]. intro. sim.
  Qed.

  Definition with_bits (a : S1 * bitvec) (b : S2 * bitvec) : Prop := P (fst a) (fst b) /\ snd a = snd b.
  Lemma sim_collect : sim with_bits (bc_read_bit rb1) (bc_read_bit rb2).
  Proof.
    intros [s1 v1] [s2 v2] [H E]. cbn [fst snd] in *. subst v2. unfold bc_read_bit. cbn [fst snd]. destruct (HB s1 s2 H) as [E HP].
    destruct (rb1 s1) as [o1 t1], (rb2 s2) as [o2 t2]. cbn [fst snd] in *. subst o2. destruct o1; [destruct (bv_push v1 a)|..]; split; try reflexivity; split; cbn; auto.
  Qed.
End Bits.

(** ** Readers *)
Section Readers.
  Context {R : Type} (exact : nat -> M R (list N)) (left : R -> nat) (Q : R -> source -> Prop).
  Hypothesis exact_sim : forall n, sim Q (exact n) (read_exact n).
  Hypothesis left_sim : forall r s, Q r s -> left r = List.length (rest s).

  Definition rd_rel (a : io_reader R) (b : bit_reader) : Prop :=
    Q (io_inner a) (br_inner b) /\ io_current a = br_current b /\ io_remaining a = br_remaining b /\ io_track a = br_track b.

  Ltac rel H := destruct H as (?HQ & ?EC & ?ER & ?ET).

  Lemma sim_position : sim rd_rel io_position br_position.
  Proof.
    intros a b H. assert (H' := H). rel H. unfold io_position, br_position. rewrite ER. destruct (br_remaining b <=? 7); split; auto; exact H'.
  Qed.

  Lemma sim_refill : sim rd_rel (io_refill exact) br_refill.
  Proof.
    intros a b H. assert (H' := H). rel H. unfold io_refill, br_refill. rewrite ER. destruct (0 =? br_remaining b); [|split; [reflexivity|exact H']].
    destruct (exact_sim 1 _ _ HQ) as [E HQ']. assert (K : forall m t, read_exact 1 (br_inner b) <> (Panic m, t)) by (intros m t; unfold read_exact; destruct (Nat.leb _ _); discriminate).
    assert (K2 : forall t, read_exact 1 (br_inner b) <> (Diverge, t)) by (intros t; unfold read_exact; destruct (Nat.leb _ _); discriminate).
    destruct (exact 1 (io_inner a)) as [o1 t1], (read_exact 1 (br_inner b)) as [o2 t2]. cbn [fst snd] in *. subst o2.
    destruct o1; try (now destruct (K m t2)); try (now destruct (K2 t2)); split; try reflexivity; unfold rd_rel; cbn; auto.
  Qed.

  Lemma sim_read_bit : sim rd_rel (io_read_bit exact) br_read_bit.
  Proof.
    unfold io_read_bit, br_read_bit. apply sim_bind; [exact sim_refill|]. intros _ a b H. assert (H' := H). rel H. cbn zeta. rewrite ER, EC, ET.
    destruct (br_track b) as [v|]; [destruct (bv_push v _)|]; cbn; split; try reflexivity; try exact H'; unfold rd_rel; cbn; auto.
  Qed.

  Lemma sim_untracked : sim rd_rel io_assert_untracked br_assert_untracked.
  Proof. intros a b H. assert (H' := H). rel H. unfold io_assert_untracked, br_assert_untracked. rewrite ET. destruct (br_track b); split; auto. Qed.

  Lemma sim_align_loop : forall fuel, sim rd_rel (io_align_loop exact fuel) (br_align_loop fuel).
  Proof.
    induction fuel as [|fuel IH]; cbn [io_align_loop br_align_loop]; [sim|]. apply sim_bind; [exact sim_position|]. intro p. destruct (0 =? p); [sim|].
    apply sim_bind; [exact sim_read_bit|]. intro. apply sim_bind; [sim|]. intros _. exact IH.
  Qed.
  Lemma sim_align : sim rd_rel (io_align exact) br_align.
  Proof. unfold io_align, br_align. apply sim_bind; [exact sim_untracked|]. intros _. apply sim_align_loop. Qed.

  Lemma sim_inner n : sim rd_rel (io_inner_read_exact exact n) (br_inner_read_exact n).
  Proof.
    intros a b H. rel H. unfold io_inner_read_exact, br_inner_read_exact, zoom. destruct (exact_sim n _ _ HQ) as [E HQ'].
    destruct (exact n (io_inner a)) as [o1 t1], (read_exact n (br_inner b)) as [o2 t2]. cbn [fst snd] in *. subst o2. split; [reflexivity|]. unfold rd_rel. cbn. auto.
  Qed.
  Lemma sim_aligned : sim rd_rel io_assert_aligned br_assert_aligned.
  Proof. unfold io_assert_aligned, br_assert_aligned. apply sim_bind; [exact sim_position|]. intro. sim. Qed.
  Lemma sim_u16 : sim rd_rel (io_read_aligned_u16 exact) br_read_aligned_u16.
  Proof.
    unfold io_read_aligned_u16, br_read_aligned_u16. apply sim_bind; [exact sim_aligned|]. intros _. apply sim_bind; [exact sim_untracked|]. intros _.
    apply sim_bind; [apply sim_inner|]. intro. sim.
  Qed.
  Lemma sim_length_prefixed : sim rd_rel (io_read_length_prefixed exact) br_read_length_prefixed.
  Proof.
    unfold io_read_length_prefixed, br_read_length_prefixed. apply sim_bind; [exact sim_aligned|]. intros _. apply sim_bind; [exact sim_untracked|]. intros _.
    apply sim_bind; [exact sim_u16|]. intro. apply sim_bind; [exact sim_u16|]. intro. apply sim_bind; [sim|]. intros _. apply sim_inner.
  Qed.

  Lemma sim_scan_data l d : sim rd_rel (io_scan_huffman_data exact left l d) (scan_huffman_data l d).
  Proof.
    intros a b H. unfold io_scan_huffman_data, scan_huffman_data, br_bits_left.
    assert (EL : (8 * left (io_inner a) + N.to_nat (io_remaining a) = 8 * List.length (rest (br_inner b)) + N.to_nat (br_remaining b))%nat).
    { destruct H as (HQ & _ & ER & _). now rewrite (left_sim _ _ HQ), ER. }
    rewrite EL. exact (sim_scan rd_rel _ _ sim_read_bit l d _ a b H).
  Qed.

  Lemma sim_codes_collected : sim rd_rel (io_read_codes_collected exact) read_codes_collected.
  Proof.
    intros a b H. unfold io_read_codes_collected, read_codes_collected.
    destruct (sim_read_codes _ _ _ (sim_collect rd_rel _ _ sim_read_bit) (a, bv_new) (b, bv_new) (conj H eq_refl)) as [E [HP HV]].
    destruct (read_codes (bc_read_bit (io_read_bit exact)) (a, bv_new)) as [o1 [t1 v1]], (read_codes (bc_read_bit br_read_bit) (b, bv_new)) as [o2 [t2 v2]].
    cbn [fst snd] in *. subst o2 v2. destruct o1; split; auto.
  Qed.

  Lemma sim_read_block : sim rd_rel (io_read_block exact left) read_block.
  Proof.
    unfold io_read_block, read_block. apply sim_bind; [apply sim_read_part, sim_read_bit|]. intro ty. destruct (ty =? 0).
    { apply sim_bind; [exact sim_align|]. intros _. apply sim_bind; [exact sim_length_prefixed|]. intro. sim. }
    destruct (ty =? 1).
    { apply sim_bind; [sim|]. intro. apply sim_bind; [sim|]. intro. apply sim_bind; [apply sim_scan_data|]. intro. sim. }
    destruct (ty =? 2).
    { apply sim_bind; [apply sim_codes_collected|]. intros [[l d] trees]. apply sim_bind; [apply sim_scan_data|]. intro. sim. }
    destruct (ty =? 3); sim.
  Qed.

  Definition it_rel (a : io_iter R) (b : block_iter) : Prop := rd_rel (ii_inner a) (bi_inner b) /\ ii_end a = bi_end b.

  Lemma sim_next : sim it_rel (io_next exact left) bi_next.
  Proof.
    intros a b [H EE]. unfold io_next, bi_next. rewrite EE. destruct (bi_end b) eqn:EB.
    - destruct (sim_align _ _ H) as [E HP]. destruct (io_align exact (ii_inner a)) as [o1 t1], (br_align (bi_inner b)) as [o2 t2]. cbn [fst snd] in *. subst o2.
      destruct o1; split; try reflexivity; split; cbn; auto.
    - destruct (sim_read_bit _ _ H) as [E HP]. destruct (io_read_bit exact (ii_inner a)) as [o1 t1], (br_read_bit (bi_inner b)) as [o2 t2]. cbn [fst snd] in *. subst o2.
      destruct o1; try (split; [reflexivity|split; cbn; auto]; fail).
      destruct (sim_read_block _ _ HP) as [E HP']. destruct (io_read_block exact left t1) as [o1 u1], (read_block t2) as [o2 u2]. cbn [fst snd] in *. subst o2.
      destruct o1; split; try reflexivity; split; cbn; auto.
  Qed.

  Lemma it_new r s : Q r s -> it_rel (io_parse_deflate r) (parse_deflate s).
  Proof. intro H. repeat split. exact H. Qed.

  Lemma sim_null fuel : forall into, sim Q (io_null_terminated_loop exact fuel into) (read_null_terminated_loop fuel into).
  Proof.
    induction fuel as [|fuel IH]; intros into; cbn [io_null_terminated_loop read_null_terminated_loop]; [sim|]. apply sim_bind; [apply exact_sim|]. intro buf.
    cbn zeta. destruct (0 =? nth 0 buf 0); [sim|apply IH].
  Qed.
  Lemma sim_header : sim Q (io_discard_header exact left) discard_header.
  Proof.
    unfold io_discard_header, discard_header. apply sim_bind; [apply exact_sim|]. intro h. cbn zeta. do 3 (apply sim_bind; [sim|]; intros _).
    assert (HN : forall into, sim Q (io_null_terminated exact left into) (read_null_terminated into)).
    { intros into r s H. unfold io_null_terminated, read_null_terminated. rewrite (left_sim _ _ H). now apply sim_null. }
    apply sim_bind.
    { destruct (has_bit _ 2); [|sim]. unfold io_extra, read_extra. apply sim_bind; [apply exact_sim|]. intro. apply sim_bind; [apply exact_sim|]. intro. sim. }
    intro w1. apply sim_bind; [destruct (has_bit _ 3); [apply HN|sim]|]. intro w2. apply sim_bind; [destruct (has_bit _ 4); [apply HN|sim]|]. intro w3.
    destruct (has_bit _ 1); [|sim]. unfold io_hcrc, read_hcrc. apply sim_bind; [apply exact_sim|]. intro. sim.
  Qed.

  Lemma sim_read_loop : forall fuel, sim Q (io_read_loop exact fuel) (read_loop fuel).
  Proof.
    induction fuel as [|fuel IH]; cbn [io_read_loop read_loop]; [sim|]. intros r s H. destruct (exact_sim 2 _ _ H) as [E HQ].
    destruct (exact 2 r) as [o1 t1], (read_exact 2 s) as [o2 t2]. cbn [fst snd] in *. subst o2. destruct o1 as [buf|[[]| |]| |]; try (split; [reflexivity|exact HQ]).
    cbn zeta. revert t1 t2 HQ. set (first := nth 0 buf 0 + 256 * nth 1 buf 0).
    match goal with |- forall t1 t2, Q t1 t2 -> fst (?m1 t1) = fst (?m2 t2) /\ _ => change (sim Q m1 m2) end.
    destruct (0 =? first); [apply sim_bind; [exact IH|]; intro; sim|]. destruct (first <=? 32768).
    - apply sim_bind; [apply exact_sim|]. intro. apply sim_bind; [sim|]. intro. apply sim_bind; [exact IH|]. intro. sim.
    - apply sim_bind; [exact IH|]. intro. sim.
  Qed.
  Lemma sim_st_read : sim Q (io_st_read exact left) st_read.
  Proof. intros r s H. unfold io_st_read, st_read. rewrite (left_sim _ _ H). now apply sim_read_loop. Qed.

  Lemma dump_loop_eq : forall fuel id a b, it_rel a b -> io_dump_loop exact left fuel id a = dump_loop fuel id b.
  Proof.
    induction fuel as [|fuel IH]; intros id a b H; cbn [io_dump_loop dump_loop]; [reflexivity|]. destruct (sim_next a b H) as [E HP].
    destruct (io_next exact left a) as [o1 t1], (bi_next b) as [o2 t2]. cbn [fst snd] in *. subst o2. destruct o1 as [[blk|]| | |]; try reflexivity. now rewrite (IH _ _ _ HP).
  Qed.
  Lemma dump_run_eq r s : Q r s -> io_dump_run exact left r = dump_run s.
  Proof.
    intro H. unfold io_dump_run, dump_run. destruct (sim_header r s H) as [E HP]. destruct (io_discard_header exact left r) as [o1 t1], (discard_header s) as [o2 t2].
    cbn [fst snd] in *. subst o2. destruct o1; try reflexivity. rewrite (left_sim _ _ HP). apply dump_loop_eq, it_new, HP.
  Qed.
End Readers.

(** ** Writers *)
Section Writers.
  Context {W : Type} (all : list N -> M W unit) (Q : W -> sink -> Prop).
  Hypothesis all_sim : forall bs, sim Q (all bs) (write_all bs).

  Definition wr_rel (a : io_writer W) (b : bit_writer) : Prop := Q (iw_inner a) (bw_inner b) /\ iw_current a = bw_current b.

  Lemma sim_all bs : sim wr_rel (iw_inner_write_all all bs) (bw_inner_write_all bs).
  Proof.
    intros a b [H E]. unfold iw_inner_write_all, bw_inner_write_all, zoom. destruct (all_sim bs _ _ H) as [EO HQ].
    destruct (all bs (iw_inner a)) as [o1 t1], (write_all bs (bw_inner b)) as [o2 t2]. cbn [fst snd] in *. subst o2. split; [reflexivity|split; auto].
  Qed.
  Lemma sim_current {A} (f : bitvec -> outcome (A * bitvec)) : sim wr_rel (iw_lift_current f) (bw_lift_current f).
  Proof.
    intros a b [H E]. unfold iw_lift_current, bw_lift_current. rewrite E. destruct (f (bw_current b)) as [[x v]| | |]; split; try reflexivity; split; auto.
  Qed.
  Lemma sim_write_bit bit : sim wr_rel (iw_write_bit all bit) (bw_write_bit bit).
  Proof.
    unfold iw_write_bit, bw_write_bit. apply sim_bind; [apply sim_current|]. intros _ a b H. assert (E := proj2 H). rewrite E. destruct (Nat.leb 8 _); [|split; [reflexivity|exact H]].
    destruct (Nat.eqb 8 _); [|split; [reflexivity|exact H]]. revert a b H E. intros a b H _. revert a b H.
    match goal with |- forall a b, wr_rel a b -> fst (?m1 a) = fst (?m2 b) /\ _ => change (sim wr_rel m1 m2) end.
    apply sim_bind; [apply sim_current|]. intros [byte|]; [apply sim_all|sim].
  Qed.
  Lemma sim_bits_val_loop val : forall is, sim wr_rel (iw_write_bits_val_loop all is val) (bw_write_bits_val_loop is val).
  Proof.
    induction is as [|i is IH]; cbn [iw_write_bits_val_loop bw_write_bits_val_loop]; [sim|]. apply sim_bind; [sim|]. intros _. apply sim_bind; [apply sim_write_bit|]. intros _. exact IH.
  Qed.
  Lemma sim_bits_val n val : sim wr_rel (iw_write_bits_val all n val) (bw_write_bits_val n val).
  Proof. apply sim_bits_val_loop. Qed.
  Lemma sim_w_align : sim wr_rel (iw_align all) bw_align.
  Proof.
    unfold iw_align, bw_align. generalize 9%nat. induction n as [|n IH]; cbn [iw_align_loop bw_align_loop]; [sim|]. apply sim_bind; [apply sim_current|]. intros []; [sim|].
    apply sim_bind; [apply sim_write_bit|]. intros _. exact IH.
  Qed.
  Lemma sim_iter : forall n it, sim wr_rel (iw_write_iter all n it) (bw_write_iter n it).
  Proof.
    induction n as [|n IH]; intro it; cbn [iw_write_iter bw_write_iter]; [sim|]. destruct (si_next it) as [[[b|]| | |] it']; sim. apply sim_write_bit.
  Qed.
  Lemma sim_vec v : sim wr_rel (iw_write_vec all v) (bw_write_vec v).
  Proof. apply sim_iter. Qed.
  Lemma sim_w_length_prefixed data : sim wr_rel (iw_write_length_prefixed all data) (bw_write_length_prefixed data).
  Proof.
    unfold iw_write_length_prefixed, bw_write_length_prefixed. apply sim_bind; [exact sim_w_align|]. intros _. cbn zeta. apply sim_bind; [sim|]. intros _.
    apply sim_bind; [apply sim_all|]. intros _. apply sim_bind; [apply sim_all|]. intros _. apply sim_all.
  Qed.
  Lemma sim_code lt dt c : sim wr_rel (iw_code all lt dt c) (compressed_code lt dt c).
  Proof.
    destruct c as [byte|r]; cbn [iw_code compressed_code].
    - apply sim_bind; [sim|]. intros [v|]; [apply sim_vec|sim].
    - apply sim_bind; [|intros _].
      + unfold iw_encode_run, encode_run. do 3 (apply sim_bind; [sim|]; intro). apply sim_bind; [apply sim_vec|]. intros _. apply sim_bind; [sim|].
        intros [[bits val]|]; [apply sim_bits_val|sim].
      + unfold iw_encode_distance, encode_distance. apply sim_bind; [sim|]. intros [[[code bits] val]|]; [|sim]. destruct dt; [|sim].
        do 2 (apply sim_bind; [sim|]; intro). apply sim_bind; [apply sim_vec|]. intros _. destruct (0 <? bits); [apply sim_bits_val|sim].
  Qed.
  Lemma sim_codes lt dt codes : sim wr_rel (iw_compressed_codes all lt dt codes) (compressed_codes lt dt codes).
  Proof.
    unfold iw_compressed_codes, compressed_codes. do 2 (apply sim_bind; [sim|]; intro). apply sim_bind; [sim|]. intros _. apply sim_bind.
    - induction codes as [|c codes IH]; cbn [iw_codes_loop compressed_codes_loop]; [sim|]. apply sim_bind; [apply sim_code|]. intros _. exact IH.
    - intros _. do 2 (apply sim_bind; [sim|]; intro). apply sim_vec.
  Qed.
  Lemma sim_block block : sim wr_rel (iw_compressed_block all block) (compressed_block block).
  Proof.
    destruct block as [data|codes|trees codes]; cbn [iw_compressed_block compressed_block]; (apply sim_bind; [apply sim_bits_val|]; intros _).
    - apply sim_w_length_prefixed.
    - do 2 (apply sim_bind; [sim|]; intro). apply sim_codes.
    - apply sim_bind; [apply sim_vec|]. intros _. apply sim_bind; [sim|]. intros [l d]. apply sim_codes.
  Qed.
  Lemma sim_blocks : forall blocks, sim wr_rel (iw_blocks all blocks) (compress_blocks blocks).
  Proof.
    induction blocks as [|b blocks IH]; cbn [iw_blocks compress_blocks]; [exact sim_w_align|]. apply sim_bind; [apply sim_write_bit|]. intros _.
    apply sim_bind; [apply sim_block|]. intros _. exact IH.
  Qed.

  (** decompression *)
  Definition out_rel (a : circ * W) (b : circ * sink) : Prop := fst a = fst b /\ Q (snd a) (snd b).

  Lemma sim_push d bs : forall (out : W) (out' : sink), Q out out' ->
    fst (let '(o, t) := all bs out in (o, (d, t))) = fst (let '(o, t) := write_all bs out' in (o, (d, t)))
    /\ out_rel (snd (let '(o, t) := all bs out in (o, (d, t)))) (snd (let '(o, t) := write_all bs out' in (o, (d, t)))).
  Proof.
    intros out out' H. destruct (all_sim bs _ _ H) as [E HQ]. destruct (all bs out) as [o1 t1], (write_all bs out') as [o2 t2]. cbn [fst snd] in *. subst o2. split; [reflexivity|split; auto].
  Qed.

  Lemma sim_copy_loop : forall n rf, sim out_rel (io_copy_loop all n rf) (cb_copy_loop n rf).
  Proof.
    induction n as [|n IH]; intro rf; cbn [io_copy_loop cb_copy_loop]; [sim|]. intros [d out] [d' out'] [E H]. cbn [fst snd] in *. subst d'.
    destruct (get_idx (cb_data d) rf) as [byte| | |]; try (split; [reflexivity|split; auto]). cbn zeta. destruct (all_sim [byte] _ _ H) as [E HQ].
    destruct (all [byte] out) as [o1 t1], (write_all [byte] out') as [o2 t2]. cbn [fst snd] in *. subst o2. destruct o1; try (split; [reflexivity|split; auto]).
    destruct (cb_push d byte) as [d2| | |]; try (split; [reflexivity|split; auto]). apply IH. split; auto.
  Qed.
  Lemma sim_copy dist len : sim out_rel (io_copy all dist len) (cb_copy dist len).
  Proof.
    intros [d out] [d' out'] [E H]. cbn [fst snd] in *. subst d'. unfold io_copy, cb_copy. cbn [fst]. destruct ((0 <? dist) && (dist <=? cb_valid d)); [|split; [reflexivity|split; auto]].
    apply (sim_bind out_rel); [sim|intro; apply sim_copy_loop|split; auto].
  Qed.
  Lemma sim_dec_codes : forall codes, sim out_rel (io_decompressed_codes all codes) (decompressed_codes codes).
  Proof.
    induction codes as [|[byte|r] codes IH]; cbn [io_decompressed_codes decompressed_codes]; [sim|..].
    - apply sim_bind; [|intros _; exact IH]. intros [d out] [d' out'] [E H]. cbn [fst snd] in *. subst d'.
      destruct (cb_push d byte); try (split; [reflexivity|split; auto]). now apply sim_push.
    - apply sim_bind; [apply sim_copy|]. intros _. exact IH.
  Qed.
  Lemma sim_dec_block block : sim out_rel (io_decompressed_block all block) (decompressed_block block).
  Proof.
    destruct block as [data|codes|trees codes]; cbn [io_decompressed_block decompressed_block]; [|apply sim_dec_codes..].
    intros [d out] [d' out'] [E H]. cbn [fst snd] in *. subst d'. destruct (cb_extend d data); try (split; [reflexivity|split; auto]). now apply sim_push.
  Qed.

  Section Cat.
    Context {R : Type} (exact : nat -> M R (list N)) (left : R -> nat) (QR : R -> source -> Prop).
    Hypothesis exact_sim : forall n, sim QR (exact n) (read_exact n).
    Hypothesis left_sim : forall r s, QR r s -> left r = List.length (rest s).

    Lemma sim_cat_loop : forall fuel a b, it_rel QR a b -> sim out_rel (io_cat_loop all exact left fuel a) (cat_loop fuel b).
    Proof.
      induction fuel as [|fuel IH]; intros a b H; cbn [io_cat_loop cat_loop]; [sim|]. destruct (sim_next exact left QR exact_sim left_sim a b H) as [E HP].
      destruct (io_next exact left a) as [o1 t1], (bi_next b) as [o2 t2]. cbn [fst snd] in *. subst o2. destruct o1 as [[blk|]| | |]; sim. apply sim_dec_block.
    Qed.
    Lemma sim_cat r s w t : QR r s -> Q w t -> fst (io_cat_run all exact left r w) = fst (cat_run s t) /\ Q (snd (io_cat_run all exact left r w)) (snd (cat_run s t)).
    Proof.
      intros H HW. unfold io_cat_run, cat_run. destruct (sim_header exact left QR exact_sim left_sim r s H) as [E HP].
      destruct (io_discard_header exact left r) as [o1 t1], (discard_header s) as [o2 t2]. cbn [fst snd] in *. subst o2. destruct o1; try (split; [reflexivity|exact HW]).
      destruct cb_new as [d| | |]; try (split; [reflexivity|exact HW]). rewrite (left_sim _ _ HP).
      destruct (sim_cat_loop (8 * List.length (rest t2) + 2) (io_parse_deflate t1) (parse_deflate t2) (it_new QR _ _ HP) (d, w) (d, t) (conj eq_refl HW)) as [E1 [_ E2]].
      destruct (io_cat_loop all exact left _ _ (d, w)) as [o1 [d1 w1]], (cat_loop _ _ (d, t)) as [o2 [d2 w2]]. cbn [fst snd] in *. auto.
    Qed.
  End Cat.
End Writers.
