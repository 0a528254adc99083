(** Lemmas: every bit source behaves like a list of bits. *)
From Verif Require Import Base M_bit M_lib M_code_tree M_huffman M_parse Spec L_bits.
From Coq Require Import ZArith ZifyBool ZifyNat ZifyN.
Ltac Zify.zify_post_hook ::= Z.div_mod_to_equations.
Local Open Scope N_scope.
Local Open Scope model_scope.

(** What a bit source reports when it runs out. *)
Inductive eofk := EofErr (e : err) | EofPanic (m : string).
Definition eof_out {A} (k : eofk) : outcome A :=
  match k with EofErr e => Err e | EofPanic m => Panic m end.

(** The list of bits as a bit source. *)
Definition rbl (k : eofk) : M (list bool) bool :=
  fun bs => match bs with [] => (eof_out k, []) | b :: t => (Ok b, t) end.

(** ** Simulation *)

Definition sim {S A} (R : list bool -> S -> Prop) (m1 : M (list bool) A) (m2 : M S A) : Prop :=
  forall bs s, R bs s -> exists s', m2 s = (fst (m1 bs), s') /\ R (snd (m1 bs)) s'.

Section Sim.
  Context {S : Type} (R : list bool -> S -> Prop).

  Lemma sim_bind {A B} (m1 : M _ A) m2 (k1 : A -> M _ B) k2 :
    sim R m1 m2 -> (forall a, sim R (k1 a) (k2 a)) -> sim R (bind m1 k1) (bind m2 k2).
  Proof.
    intros H1 H2 bs s Hs. destruct (H1 bs s Hs) as (s1 & E1 & R1).
    unfold bind. destruct (m1 bs) as [o bs1]. cbn [fst snd] in *. rewrite E1.
    destruct o; cbn [fst snd]; eauto. now apply H2.
  Qed.
  Lemma sim_ret {A} (a : A) : sim R (ret a) (ret a).
  Proof. intros bs s H. now exists s. Qed.
  Lemma sim_lift {A} (x : outcome A) : sim R (lift x) (lift x).
  Proof. intros bs s H. now exists s. Qed.
  Lemma sim_fail {A} m : sim R (fail m : M _ A) (fail m).
  Proof. intros bs s H. now exists s. Qed.
  Lemma sim_panic {A} m : sim R (panic m : M _ A) (panic m).
  Proof. intros bs s H. now exists s. Qed.
  Lemma sim_ensure b m : sim R (ensure b m) (ensure b m).
  Proof. destruct b; [apply sim_ret|apply sim_fail]. Qed.
  Lemma sim_assert b m : sim R (assert_ b m) (assert_ b m).
  Proof. destruct b; [apply sim_ret|apply sim_panic]. Qed.
End Sim.

Create HintDb sim discriminated.
#[export] Hint Resolve sim_bind sim_ret sim_lift sim_fail sim_panic sim_ensure sim_assert : sim.

(** Everything written against the bit-source interface. *)
Section SimSource.
  Context {S : Type} (R : list bool -> S -> Prop) (k : eofk) (rb : M S bool).
  Hypothesis Hrb : sim R (rbl k) rb.

  Lemma sim_read_part_loop is : forall res, sim R (read_part_loop (rbl k) is res) (read_part_loop rb is res).
  Proof. induction is; intro; cbn [read_part_loop]; auto with sim. Qed.

  Lemma sim_read_part n : sim R (read_part (rbl k) n) (read_part rb n).
  Proof. unfold read_part. apply sim_bind; auto using sim_read_part_loop with sim. Qed.

  Lemma sim_decode_node n : sim R (decode_node (rbl k) n) (decode_node rb n).
  Proof.
    induction n; cbn [decode_node]; auto with sim.
    apply sim_bind; auto. intros []; auto.
  Qed.

  Lemma sim_decode_symbol t : sim R (decode_symbol (rbl k) t) (decode_symbol rb t).
  Proof. apply sim_decode_node. Qed.

  Lemma sim_read_cl_loop is : forall lens,
    sim R (read_cl_loop (rbl k) is lens) (read_cl_loop rb is lens).
  Proof.
    induction is; intro; cbn [read_cl_loop]; auto with sim.
    apply sim_bind; [apply sim_read_part|]. intro. apply sim_bind; auto with sim.
  Qed.

  Lemma sim_read_lens_loop f t len : forall i rv rl cl,
    sim R (read_lens_loop (rbl k) f t len i rv rl cl) (read_lens_loop rb f t len i rv rl cl).
  Proof.
    induction f; intros; cbn [read_lens_loop]; auto with sim.
    assert (C : forall i rv rl cl,
              sim R (if Nat.leb len i then ret (rl, cl) else read_lens_loop (rbl k) f t len i rv rl cl)
                  (if Nat.leb len i then ret (rl, cl) else read_lens_loop rb f t len i rv rl cl)).
    { intros. destruct (Nat.leb len i0); auto with sim. }
    destruct (0 <? rl).
    - destruct rv; auto with sim.
    - apply sim_bind; [apply sim_decode_symbol|]. intro sym.
      destruct (sym <=? 15); [auto with sim|].
      destruct (sym =? 16).
      { apply sim_bind; auto with sim. intro. apply sim_bind; [apply sim_read_part|]. auto. }
      destruct (sym =? 17).
      { apply sim_bind; [apply sim_read_part|]. auto. }
      destruct (sym =? 18).
      { apply sim_bind; [apply sim_read_part|]. auto. }
      auto with sim.
  Qed.

  Lemma sim_read_codes : sim R (read_codes (rbl k)) (read_codes rb).
  Proof.
    unfold read_codes.
    repeat (first [ apply sim_bind; [first [apply sim_read_part | apply sim_lift | apply sim_read_cl_loop
                                            | apply sim_read_lens_loop | apply sim_ensure]|]; intro ]).
    destruct a12 as [rl cl].
    apply sim_bind; [apply sim_ensure|]; intros _.
    apply sim_bind; [apply sim_lift|]; intros l1.
    destruct (skipn _ cl) as [|x [|y t]].
    - apply sim_bind; auto with sim.
    - destruct (0 =? x); auto with sim.
    - apply sim_bind; auto with sim.
  Qed.

  Lemma sim_decode_run_length sym : sim R (decode_run_length (rbl k) sym) (decode_run_length rb sym).
  Proof.
    unfold decode_run_length. apply sim_bind; auto with sim. intros _.
    destruct (sym <=? 264); auto with sim. destruct (sym <=? 284).
    - apply sim_bind; auto with sim. intros _. apply sim_bind; [apply sim_read_part|]; auto with sim.
    - destruct (sym =? 285); auto with sim.
  Qed.

  Lemma sim_decode_distance sym : sim R (decode_distance (rbl k) sym) (decode_distance rb sym).
  Proof.
    unfold decode_distance. destruct (sym <=? 3); auto with sim. destruct (sym <=? 29).
    - apply sim_bind; [apply sim_read_part|]; auto with sim.
    - destruct (sym <=? 31); auto with sim.
  Qed.

  Lemma sim_scan_loop f l d : sim R (scan_loop (rbl k) f l d) (scan_loop rb f l d).
  Proof.
    induction f; cbn [scan_loop]; auto with sim.
    apply sim_bind; [apply sim_decode_symbol|]. intro sym.
    destruct (sym =? 256); auto with sim. destruct (sym <? 256); auto with sim.
    apply sim_bind; [apply sim_decode_run_length|]. intro run.
    apply sim_bind; [destruct d; auto using sim_decode_symbol with sim|]. intro ds.
    apply sim_bind; [apply sim_decode_distance|]. auto with sim.
  Qed.
End SimSource.

(** ** The byte reader as a bit list *)

Definition Rbr (e : errkind) (bs : list bool) (r : bit_reader) : Prop :=
  br_remaining r <= 7 /\ br_track r = None /\ at_end (br_inner r) = e
  /\ bytes_ok (rest (br_inner r))
  /\ bs = skipn (N.to_nat (8 - br_remaining r)) (lsb 8 (br_current r)) ++ bits_of_bytes (rest (br_inner r)).

Lemma skipn_lsb n m v : (m < n)%nat -> skipn m (lsb n v) = N.testbit v (N.of_nat m) :: skipn (S m) (lsb n v).
Proof. intro H. apply skipn_nth. now apply lsb_nth. Qed.

Lemma bit_shiftr v k : (1 =? N.land (N.shiftr v k) 1) = N.testbit v k.
Proof.
  change 1 with (N.ones 1) at 2. rewrite N.land_ones. change (2^1) with 2.
  rewrite <- N.bit0_mod, N.shiftr_spec', N.add_0_l. destruct (N.testbit v k); reflexivity.
Qed.

Lemma Rbr_new s : bytes_ok (rest s) -> Rbr (at_end s) (bits_of_bytes (rest s)) (br_new s).
Proof.
  intro H. unfold Rbr, br_new. cbn [br_remaining br_track br_inner br_current].
  repeat split; auto. lia.
Qed.

Lemma sim_br_read_bit e : sim (Rbr e) (rbl (EofErr (EIo e))) br_read_bit.
Proof.
  intros bs [[rs ae] cur rem tr] (H1 & H2 & H3 & H4 & H5).
  cbn [br_remaining br_track br_inner br_current rest at_end] in *. subst tr ae.
  unfold br_read_bit, bind, br_refill. cbn [br_remaining br_inner].
  destruct (N.eqb_spec 0 rem) as [E|E].
  - subst rem. unfold read_exact. cbn [rest at_end br_track br_current].
    rewrite skipn_all2 in H5 by (rewrite lsb_length; lia). cbn [app] in H5.
    destruct rs as [|x rs].
    + cbn [List.length Nat.leb]. subst bs. cbn [bits_of_bytes flat_map rbl fst snd eof_out].
      eexists. split; [reflexivity|].
      repeat split; auto; cbn; try lia.
    + cbn [List.length Nat.leb firstn skipn nth br_remaining br_current br_track br_inner].
      subst bs. rewrite bits_of_bytes_cons, lsb_S. cbn [app rbl fst snd].
      change (7 - (8 - 1)) with 0. rewrite bit_shiftr.
      eexists. split; [reflexivity|].
      inversion H4; subst.
      unfold Rbr; cbn [br_remaining br_track br_inner br_current rest at_end].
      repeat split; auto; [lia|].
      change (N.to_nat (8 - (8 - 1))) with 1%nat. rewrite (lsb_S 7 x). reflexivity.
  - cbn [br_remaining br_current br_track br_inner].
    rewrite bit_shiftr.
    rewrite skipn_lsb in H5 by lia. subst bs. cbn [app rbl fst snd].
    replace (N.of_nat (N.to_nat (8 - rem))) with (7 - (rem - 1)) by lia.
    eexists. split; [reflexivity|].
    unfold Rbr; cbn [br_remaining br_track br_inner br_current rest at_end].
    repeat split; auto; [lia|]. do 2 f_equal. lia.
Qed.

Lemma Rbr_length e bs r : Rbr e bs r -> List.length bs = br_bits_left r.
Proof.
  intros (H1 & H2 & H3 & H4 & ->). rewrite app_length, skipn_length, lsb_length, bits_of_bytes_length.
  unfold br_bits_left. lia.
Qed.

Lemma Rbr_rem e bs r : Rbr e bs r -> br_remaining r = N.of_nat (List.length bs mod 8).
Proof. intro H. rewrite (Rbr_length _ _ _ H). unfold br_bits_left. destruct H. lia. Qed.

(** ** Collector *)
Definition Rbc {S} (R : list bool -> S -> Prop) (total : list bool) (bs : list bool) (st : S * bitvec) : Prop :=
  R bs (fst st) /\ exists c, snd st = bitvec_of c /\ total = c ++ bs.

Lemma sim_bc {S} (R : list bool -> S -> Prop) k rb total :
  sim R (rbl k) rb -> sim (Rbc R total) (rbl k) (bc_read_bit rb).
Proof.
  intros H bs [s v] (HR & c & Hv & Ht). cbn [fst snd] in *.
  destruct (H bs s HR) as (s' & E & R'). unfold bc_read_bit. cbn [fst snd]. rewrite E.
  destruct bs as [|b bs]; cbn [rbl fst snd] in *.
  - destruct k; cbn [eof_out] in *; eexists; (split; [reflexivity|]); split; cbn; eauto.
  - rewrite Hv, bv_push_spec. eexists. split; [reflexivity|]. split; cbn [fst snd]; [assumption|].
    exists (c ++ [b]). split; [reflexivity|]. now rewrite <- app_assoc.
Qed.

(** ** Iterator over a bit vector *)
Definition Rsi (full : list bool) (bs : list bool) (it : stack_iter) : Prop :=
  exists i, it = mkIter (bitvec_of full) i /\ (i <= List.length full)%nat /\ bs = skipn i full.

Lemma sim_si full : sim (Rsi full) (rbl (EofPanic "TODO: EOF")) si_read_bit.
Proof.
  intros bs it (i & -> & Hi & ->). unfold si_read_bit, bind.
  rewrite si_next_spec by assumption. destruct (nth_error full i) as [b|] eqn:E.
  - assert (i < List.length full)%nat by (apply nth_error_Some; congruence).
    rewrite (skipn_nth _ _ _ E). cbn [rbl fst snd]. eexists. split; [reflexivity|].
    exists (S i). repeat split; auto.
  - apply nth_error_None in E. rewrite skipn_all2 by assumption. cbn [rbl fst snd eof_out].
    eexists. split; [reflexivity|]. exists i. repeat split; auto. now rewrite skipn_all2.
Qed.

Lemma Rsi_new full : Rsi full full (bv_iter (bitvec_of full)).
Proof. exists 0%nat. repeat split. cbn. lia. Qed.

(** ** Streaming: what a successful read consumed determines it *)

Definition streaming {A} (f : eofk -> M (list bool) A) : Prop :=
  forall k bs a bs', f k bs = (Ok a, bs') ->
    exists w, bs = w ++ bs'
      /\ (forall k' tail, f k' (w ++ tail) = (Ok a, tail))
      /\ (forall k' p q, w = p ++ q -> q <> [] -> f k' p = (eof_out k', [])).

Lemma app_split {A} (p q w1 w2 : list A) :
  p ++ q = w1 ++ w2 -> (exists r, w1 = p ++ r /\ r <> []) \/ (exists p2, p = w1 ++ p2 /\ w2 = p2 ++ q).
Proof.
  revert w1. induction p as [|x p IH]; intros w1 E.
  - destruct w1 as [|y w1].
    + right. exists []. cbn in *. auto.
    + left. exists (y :: w1). split; [reflexivity|discriminate].
  - destruct w1 as [|y w1].
    + right. exists (x :: p). cbn in *. auto.
    + cbn in E. inversion E; subst. destruct (IH w1 H1) as [(r & -> & Hr)|(p2 & -> & ->)].
      * left. exists r. auto.
      * right. exists p2. auto.
Qed.

Lemma streaming_ret {A} (a : A) : streaming (fun _ => ret a).
Proof.
  intros k bs a' bs' E. unfold ret in *. inversion E; subst. exists []. repeat split; auto.
  intros k' p q Hpq Hq. symmetry in Hpq. apply app_eq_nil in Hpq. tauto.
Qed.

Lemma streaming_bind {A B} (m : eofk -> M _ A) (g : A -> eofk -> M _ B) :
  streaming m -> (forall a, streaming (g a)) -> streaming (fun k => bind (m k) (fun a => g a k)).
Proof.
  intros H1 H2 k bs b bs' E. unfold bind in *.
  destruct (m k bs) as [o bs1] eqn:E1. destruct o; try discriminate.
  destruct (H1 _ _ _ _ E1) as (w1 & -> & C1 & T1).
  destruct (H2 _ _ _ _ _ E) as (w2 & -> & C2 & T2).
  exists (w1 ++ w2). rewrite app_assoc. split; [reflexivity|]. split.
  - intros k' tail. rewrite <- app_assoc, C1. apply C2.
  - intros k' p q Epq Hq. symmetry in Epq.
    destruct (app_split _ _ _ _ Epq) as [(r & -> & Hr)|(p2 & -> & ->)].
    + rewrite (T1 k' p r) by auto. destruct k'; reflexivity.
    + rewrite C1. now rewrite (T2 k' p2 q).
Qed.

Lemma streaming_lift {A} (x : outcome A) : streaming (fun _ => lift x).
Proof. destruct x; [apply streaming_ret| | |]; intros ? ? ? ? E; discriminate. Qed.
Lemma streaming_fail {A} m : streaming (fun _ => fail m : M _ A).
Proof. intros ? ? ? ? E; discriminate. Qed.
Lemma streaming_panic {A} m : streaming (fun _ => panic m : M _ A).
Proof. intros ? ? ? ? E; discriminate. Qed.
Lemma streaming_ensure b m : streaming (fun _ => ensure b m).
Proof. destruct b; [apply streaming_ret|apply streaming_fail]. Qed.
Lemma streaming_assert b m : streaming (fun _ => assert_ b m).
Proof. destruct b; [apply streaming_ret|apply streaming_panic]. Qed.

Lemma streaming_rbl : streaming rbl.
Proof.
  intros k bs b bs' E. destruct bs as [|x bs]; cbn in E; [destruct k; discriminate|].
  inversion E; subst. exists [b]. repeat split.
  intros k' p q Epq Hq. destruct p as [|y p]; [reflexivity|].
  cbn in Epq. inversion Epq. symmetry in H1. apply app_eq_nil in H1. tauto.
Qed.

Create HintDb stream discriminated.
#[export] Hint Resolve streaming_ret streaming_lift streaming_fail streaming_panic
  streaming_ensure streaming_assert streaming_rbl : stream.

Ltac sbind := apply (streaming_bind (A:=_)); [auto with stream|intro].

Lemma streaming_read_part_loop is : forall res, streaming (fun k => read_part_loop (rbl k) is res).
Proof.
  induction is; intro; cbn [read_part_loop]; auto with stream.
  apply (streaming_bind rbl (fun b k => read_part_loop (rbl k) is (if b then _ else _))); auto with stream.
Qed.
#[export] Hint Resolve streaming_read_part_loop : stream.

Lemma streaming_read_part n : streaming (fun k => read_part (rbl k) n).
Proof.
  unfold read_part. apply (streaming_bind (fun _ => _) (fun _ k => _)); auto with stream.
Qed.
#[export] Hint Resolve streaming_read_part : stream.

Lemma streaming_decode_node n : streaming (fun k => decode_node (rbl k) n).
Proof.
  induction n; cbn [decode_node]; auto with stream.
  apply (streaming_bind rbl (fun (b : bool) k => if b then decode_node (rbl k) n2 else decode_node (rbl k) n1));
    auto with stream.
  intros []; auto.
Qed.
Lemma streaming_decode_symbol t : streaming (fun k => decode_symbol (rbl k) t).
Proof. apply streaming_decode_node. Qed.
#[export] Hint Resolve streaming_decode_symbol : stream.

Lemma streaming_read_cl_loop is : forall lens, streaming (fun k => read_cl_loop (rbl k) is lens).
Proof.
  induction is; intro; cbn [read_cl_loop]; auto with stream.
  apply (streaming_bind (fun k => read_part (rbl k) 3) (fun v k => _)); auto with stream. intro v.
  apply (streaming_bind (fun _ => _) (fun l k => read_cl_loop (rbl k) is l)); auto with stream.
Qed.
#[export] Hint Resolve streaming_read_cl_loop : stream.

Lemma streaming_read_lens_loop f t len : forall i rv rl cl,
  streaming (fun k => read_lens_loop (rbl k) f t len i rv rl cl).
Proof.
  induction f; intros; cbn [read_lens_loop]; auto with stream.
  assert (C : forall i rv rl cl,
     streaming (fun k => if Nat.leb len i then ret (rl, cl) else read_lens_loop (rbl k) f t len i rv rl cl)).
  { intros. destruct (Nat.leb len i0); auto with stream. }
  destruct (0 <? rl).
  - destruct rv; auto with stream.
    apply (streaming_bind (fun _ => _) (fun l k => _)); auto with stream.
  - apply (streaming_bind (fun k => decode_symbol (rbl k) t) (fun sym k => _)); auto with stream. intro sym.
    destruct (sym <=? 15).
    { apply (streaming_bind (fun _ => _) (fun l k => _)); auto with stream. }
    destruct (sym =? 16).
    { apply (streaming_bind (fun _ => _) (fun l k => _)); auto with stream. intros _.
      apply (streaming_bind (fun k => read_part (rbl k) 2) (fun l k => _)); auto with stream. }
    destruct (sym =? 17).
    { apply (streaming_bind (fun k => read_part (rbl k) 3) (fun l k => _)); auto with stream. }
    destruct (sym =? 18).
    { apply (streaming_bind (fun k => read_part (rbl k) 7) (fun l k => _)); auto with stream. }
    auto with stream.
Qed.
#[export] Hint Resolve streaming_read_lens_loop : stream.

Lemma streaming_read_codes : streaming (fun k => read_codes (rbl k)).
Proof.
  unfold read_codes.
  apply (streaming_bind (fun k => read_part (rbl k) 5) (fun l k => _)); auto with stream. intro hlit.
  apply (streaming_bind (fun k => read_part (rbl k) 5) (fun l k => _)); auto with stream. intro hdist.
  apply (streaming_bind (fun k => read_part (rbl k) 4) (fun l k => _)); auto with stream. intro hclen.
  do 4 (apply (streaming_bind (fun k => read_part (rbl k) 3) (fun l k => _)); [auto with stream|intro];
        apply (streaming_bind (fun _ => _) (fun l k => _)); [auto with stream|intro]).
  apply (streaming_bind (fun k => read_cl_loop (rbl k) _ _) (fun l k => _)); [auto with stream|intro].
  apply (streaming_bind (fun _ => _) (fun l k => _)); [auto with stream|intro].
  apply (streaming_bind (fun k => read_lens_loop (rbl k) _ _ _ _ _ _ _) (fun l k => _));
    [auto with stream|intros [rl cl]].
  apply (streaming_bind (fun _ => _) (fun l k => _)); [auto with stream|intro].
  apply (streaming_bind (fun _ => _) (fun l k => _)); [auto with stream|intro].
  destruct (match skipn _ cl with [x] => 0 =? x | _ => false end); auto with stream.
  apply (streaming_bind (fun _ => _) (fun l k => _)); auto with stream.
Qed.

Lemma streaming_decode_run_length sym : streaming (fun k => decode_run_length (rbl k) sym).
Proof.
  unfold decode_run_length. apply (streaming_bind (fun _ => _) (fun l k => _)); [auto with stream|intros _].
  destruct (sym <=? 264); auto with stream. destruct (sym <=? 284).
  - apply (streaming_bind (fun _ => _) (fun l k => _)); [auto with stream|intros _].
    apply (streaming_bind (fun k => read_part (rbl k) _) (fun l k => _)); auto with stream.
  - destruct (sym =? 285); auto with stream.
Qed.
Lemma streaming_decode_distance sym : streaming (fun k => decode_distance (rbl k) sym).
Proof.
  unfold decode_distance. destruct (sym <=? 3); auto with stream. destruct (sym <=? 29).
  - apply (streaming_bind (fun k => read_part (rbl k) _) (fun l k => _)); auto with stream.
  - destruct (sym <=? 31); auto with stream.
Qed.
#[export] Hint Resolve streaming_decode_run_length streaming_decode_distance : stream.

Lemma streaming_scan_loop f l d : streaming (fun k => scan_loop (rbl k) f l d).
Proof.
  induction f; cbn [scan_loop]; auto with stream.
  apply (streaming_bind (fun k => decode_symbol (rbl k) l) (fun sym k => _)); auto with stream. intro sym.
  destruct (sym =? 256); auto with stream. destruct (sym <? 256).
  { apply (streaming_bind (fun k => scan_loop (rbl k) f l d) (fun l k => _)); auto with stream. }
  apply (streaming_bind (fun k => decode_run_length (rbl k) sym) (fun l k => _)); [auto with stream|intro run].
  apply (streaming_bind (fun k => match d with Some dist_code => decode_symbol (rbl k) dist_code
                                  | None => fail _ end) (fun l k => _)); [destruct d; auto with stream|intro ds].
  apply (streaming_bind (fun k => decode_distance (rbl k) ds) (fun l k => _)); [auto with stream|intro dist].
  apply (streaming_bind (fun _ => _) (fun l k => _)); [auto with stream|intros _].
  apply (streaming_bind (fun _ => _) (fun l k => _)); [auto with stream|intro r].
  apply (streaming_bind (fun k => scan_loop (rbl k) f l d) (fun l k => _)); auto with stream.
Qed.
