(** Lemmas: where reading a stream goes wrong, and what it says. *)
From Verif Require Import Base M_bit M_lib M_code_tree M_huffman M_parse Spec Clients Clients_wrong L_bits L_reader L_writer L_bitprops L_stored L_tree L_huff L_header L_safe L_parse.
From Coq Require Import ZArith ZifyBool ZifyNat ZifyN.
Ltac Zify.zify_post_hook ::= Z.div_mod_to_equations.
Local Open Scope N_scope.
Local Open Scope model_scope.

(** ** Trees *)
Lemma tree_levels_msg lens : N.of_nat (List.length lens) <= 65536 -> forall k nodes, (k <= 15)%nat ->
  match tree_levels lens (down k) nodes with
  | Err e => e = EMsg "not a tree" /\ forall z, N.of_nat (List.length nodes) * 2 ^ (15 - N.of_nat k) + weights lens k <> z * 2 ^ 16
  | _ => True
  end.
Proof.
  intro HL. induction k as [|k IH]; intros nodes Hk.
  - cbn [down tree_levels weights]. unfold tree_level. destruct (Nat.even (List.length nodes)) eqn:E; cbn [obind].
    + change (0 <? 0) with false. cbn [obind]. exact I.
    + split; [reflexivity|]. intros z H. change (15 - N.of_nat 0) with 15 in H. change (2 ^ 16) with (2 * 2 ^ 15) in H.
      assert (Nat.even (List.length nodes) = true); [|congruence]. apply Nat.even_spec. exists (N.to_nat z).
      assert (X : (N.of_nat (List.length nodes)) * 2 ^ 15 = (z * 2) * 2 ^ 15) by lia. apply N.mul_cancel_r in X; [lia|discriminate].
  - cbn [down tree_levels]. unfold tree_level.
    assert (W : weights lens (S k) = weights lens k + bl_count lens (N.of_nat (S k)) * 2 ^ (16 - N.of_nat (S k))) by reflexivity.
    assert (P1 : 2 ^ (15 - N.of_nat k) = 2 * 2 ^ (15 - N.of_nat (S k))). { rewrite <- N.pow_succ_r'. f_equal. lia. }
    assert (P2 : 2 ^ (16 - N.of_nat (S k)) = 2 ^ (15 - N.of_nat k)) by (f_equal; lia).
    destruct (Nat.even (List.length nodes)) eqn:E; cbn [obind].
    + replace (0 <? N.of_nat (S k)) with true by (symmetry; apply N.ltb_lt; lia).
      rewrite leaves_at_ok by lia. cbn [obind].
      set (syms := syms_at (N.of_nat (S k)) 0 lens).
      assert (LS : N.of_nat (List.length syms) = bl_count lens (N.of_nat (S k))) by apply syms_at_length.
      assert (P := pair_up_length _ E).
      assert (LEQ : N.of_nat (List.length (map Leaf syms ++ pair_up nodes)) * 2 ^ (15 - N.of_nat k) + weights lens k
                    = N.of_nat (List.length nodes) * 2 ^ (15 - N.of_nat (S k)) + weights lens (S k)).
      { rewrite W, P2, app_length, map_length, Nat2N.inj_add, LS, P1. rewrite <- P. nia. }
      specialize (IH (map Leaf syms ++ pair_up nodes) ltac:(lia)). rewrite LEQ in IH. exact IH.
    + split; [reflexivity|]. intros z H. rewrite W, P2, P1 in H.
      assert (D : forall j, (j <= k)%nat -> exists q, weights lens j = q * 2 ^ (15 - N.of_nat k)).
      { induction j; intro Hj; [exists 0; reflexivity|].
        destruct (IHj ltac:(lia)) as (q & Hq). cbn [weights]. fold (weights lens).
        rewrite Hq. exists (q + bl_count lens (N.of_nat (S j)) * 2 ^ (N.of_nat k - N.of_nat j)).
        rewrite N.mul_add_distr_r, <- N.mul_assoc, <- N.pow_add_r. do 3 f_equal. lia. }
      destruct (D k ltac:(lia)) as (q & Hq). rewrite Hq, P1 in H.
      assert (P16 : 2 ^ 16 = 2 ^ (N.of_nat k + 1) * (2 * 2 ^ (15 - N.of_nat (S k)))).
      { rewrite <- P1, <- N.pow_add_r. f_equal. lia. }
      rewrite P16 in H.
      set (X := 2 ^ (15 - N.of_nat (S k))) in *.
      assert (X <> 0) by (apply N.pow_nonzero; lia).
      set (Y := 2 ^ (N.of_nat k + 1)) in *.
      set (c := bl_count lens (N.of_nat (S k))) in *.
      assert (HH : (N.of_nat (List.length nodes) + 2 * (q + c)) * X = (2 * (z * Y)) * X) by lia.
      apply N.mul_cancel_r in HH; [|assumption].
      assert (Nat.even (List.length nodes) = true); [|congruence].
      apply Nat.even_spec. exists (N.to_nat (z * Y - (q + c))). lia.
Qed.

Lemma bad_code_det lens m1 m2 : bad_code lens m1 -> bad_code lens m2 -> m1 = m2.
Proof. intros [] []; try reflexivity; try lia; contradiction. Qed.
Lemma bad_code_not lens m : bad_code lens m -> ~ complete lens.
Proof.
  intros [L|L K|L _ K] [L' K'].
  - lia.
  - apply K. rewrite K'. reflexivity.
  - contradiction.
Qed.

Lemma tree_new_msg lens : N.of_nat (List.length lens) <= 65536 ->
  (exists t, tree_new lens = Ok t /\ complete lens) \/ exists msg, tree_new lens = Err (EMsg msg) /\ bad_code lens msg.
Proof.
  intro HL. unfold tree_new. destruct (Nat.leb_spec 2 (List.length lens)) as [H2|H2]; [|right; eexists; split; [reflexivity|now constructor]].
  assert (EU : (N.of_nat (List.length lens) <=? 4294967295) = true) by (apply N.leb_le; lia). rewrite EU, fifteen_down.
  assert (T := tree_levels_spec lens HL 15 [] ltac:(lia)). assert (T' := tree_levels_msg lens HL 15 [] ltac:(lia)).
  change (15 - N.of_nat 15) with 0 in T, T'. cbn [List.length] in T, T'. rewrite weights_kraft in T, T'. change (N.of_nat 0 * 2 ^ 0) with 0 in T, T'. rewrite N.add_0_l in T, T'.
  destruct (tree_levels lens (down 15) []) as [out| | |]; cbn [obind]; try contradiction.
  - destruct T as (_ & T2 & T3). change (2 ^ 16) with (2 * 2 ^ 15) in T2.
    assert (K : kraft lens = N.of_nat (List.length out) * 2 ^ 15) by (change (2 ^ 15) with 32768 in *; lia).
    assert (KM : kraft lens mod 2 ^ 15 = 0) by (rewrite K; apply N.mod_mul; discriminate).
    destruct out as [|n [|n2 out]].
    + right. eexists. split; [reflexivity|]. apply BC_whole; [exact H2|exact KM|]. rewrite K. discriminate.
    + left. inversion T3 as [|? ? (a & b & ->)]; subst. eexists. split; [reflexivity|]. split; [exact H2|]. rewrite K. reflexivity.
    + right. eexists. split; [reflexivity|]. apply BC_whole; [exact H2|exact KM|]. rewrite K. cbn [List.length]. change (2 ^ 15) with 32768. lia.
  - destruct T' as [-> T']. right. eexists. split; [reflexivity|]. apply BC_fraction; [exact H2|]. intro X. apply (T' (kraft lens / 2 ^ 15)).
    change (2 ^ 16) with (2 * 2 ^ 15). change (2 ^ 15) with 32768 in *. lia.
Qed.

Lemma tree_new_bad lens msg : N.of_nat (List.length lens) <= 65536 -> bad_code lens msg -> tree_new lens = Err (EMsg msg).
Proof.
  intros HL HB. destruct (tree_new_msg lens HL) as [(t & E & C)|(m & E & B)].
  - now apply bad_code_not in HB.
  - rewrite E. now rewrite (bad_code_det _ _ _ B HB).
Qed.

Lemma dist_tree_msg dl : (1 <= List.length dl <= 32)%nat -> dl <> [0] ->
  (exists t, dist_tree_of dl = Ok t /\ dist_lens_ok dl) \/ exists msg, dist_tree_of dl = Err (EMsg msg) /\ ~ dist_lens_ok dl /\ bad_code dl msg.
Proof.
  intros HL HZ. assert (T := dist_tree_of_spec dl HL HZ). destruct (dist_tree_of dl) as [t|e| |] eqn:E; try contradiction; [left; exists t; tauto|]. right.
  unfold dist_tree_of in E.
  destruct (Nat.eqb_spec 1 (List.length (filter (fun x => x =? 1) dl))) as [E1|E1];
  [destruct (Nat.eqb_spec 0 (List.length (filter (fun x => 1 <? x) dl))) as [E2|E2]|]; cbn [andb] in E.
  - assert (OO : ones_only dl) by (split; auto). apply ones_only_shape in OO. destruct OO as (a & b & ED).
    assert (LD : List.length dl = (a + 1 + b)%nat). { rewrite ED, !app_length, !repeat_length. cbn. lia. }
    destruct (Nat.lt_ge_cases a 31) as [La|La]; [destruct T; right; left; eauto|].
    assert (a = 31%nat /\ b = 0%nat) as [-> ->] by lia. rewrite ED in E. vm_compute in E. injection E as <-. exists "not a tree"%string. split; [reflexivity|]. split; [exact T|].
    apply BC_fraction; [lia|]. rewrite ED. vm_compute. discriminate.
  - destruct (tree_new_msg dl ltac:(lia)) as [(t & E' & _)|(m & E' & B)]; rewrite E' in E; [discriminate E|]. injection E as <-. eauto.
  - destruct (tree_new_msg dl ltac:(lia)) as [(t & E' & _)|(m & E' & B)]; rewrite E' in E; [discriminate E|]. injection E as <-. eauto.
Qed.

(** ** Code lengths *)
Definition no_msg (k : eofk) : Prop := forall A s, @eof_out A k <> Err (EMsg s).

Lemma bind_msg {S A B} (m : M S A) (g : A -> M S B) s e s' : bind m g s = (Err e, s') ->
  m s = (Err e, s') \/ exists a s1, m s = (Ok a, s1) /\ g a s1 = (Err e, s').
Proof. unfold bind. destruct (m s) as [[a|x| |] s1]; intro H; try discriminate H; [right; eauto|left; congruence]. Qed.

Lemma read_part_msg k n bs s bs' : no_msg k -> n <= 16 -> read_part (rbl k) n bs <> (Err (EMsg s), bs').
Proof. intros NK H E. rewrite read_part_spec in E by assumption. destruct (Nat.leb _ _); [discriminate E|]. injection E as E _. exact (NK _ _ E). Qed.
Lemma decode_msg k t bs s bs' : no_msg k -> decode_symbol (rbl k) t bs <> (Err (EMsg s), bs').
Proof.
  intros NK E. destruct (decode_symbol_total k t bs) as [(x & b & E')|E']; rewrite E' in E; [discriminate E|]. injection E as E _. exact (NK _ _ E).
Qed.
Lemma lift_msg {S A} (x : outcome A) (s : S) e s' : lift x s = (Err e, s') -> x = Err e.
Proof. unfold lift. congruence. Qed.
Lemma cl_loop_msg k n s bs' : no_msg k -> forall i lens bs, (i + n <= 15)%nat -> List.length lens = 19%nat -> read_cl_loop (rbl k) (seq i n) lens bs <> (Err (EMsg s), bs').
Proof.
  intro NK. induction n; intros i lens bs Hi HL E; cbn [seq read_cl_loop] in E; [discriminate E|].
  destruct (cl_order_pos i ltac:(lia)) as [HP HB]. rewrite <- HP in E. apply bind_msg in E. destruct E as [E|(v & b1 & E1 & E)]; [apply read_part_msg in E; [exact E|exact NK|lia]|].
  rewrite set_idx_ok in E by (rewrite HL; exact HB). apply bind_msg in E. destruct E as [E|(l & b2 & E2 & E)]; [discriminate E|]. apply lift_inv in E2. destruct E2 as [E2 ->]. injection E2 as <-.
  revert E. apply IHn; [clear - Hi; lia|now rewrite upd_length].
Qed.

Section LensMsg.
  Context (k : eofk) (cl : list N) (t : code_tree) (len : nat) (NK : no_msg k) (HT : tree_of cl t) (HCL : List.length cl = 19%nat).

  Lemma lens_some_msg s bs' : forall fuel i v rl lens bs, (i < len)%nat -> List.length lens = len ->
    read_lens_loop (rbl k) fuel t len i (Some v) rl lens bs <> (Err (EMsg s), bs').
  Proof.
    induction fuel as [|fuel IH]; intros i v rl lens bs Hi HL E; [discriminate E|]. cbn [read_lens_loop] in E.
    assert (CONT : forall (i' : nat) v rl' lens' bs, List.length lens' = len ->
               (if Nat.leb len i' then ret (rl', lens') else read_lens_loop (rbl k) fuel t len i' (Some v) rl' lens') bs <> (Err (EMsg s), bs')).
    { intros i' v' rl' lens' bs0 HL' E'. destruct (Nat.leb_spec len i'); [discriminate E'|]. revert E'. now apply IH. }
    assert (SETI : forall x, set_idx lens i x = Ok (upd lens i x)) by (intro; apply set_idx_ok; lia).
    destruct (0 <? rl).
    - rewrite SETI in E. revert E. apply CONT. now rewrite upd_length.
    - apply bind_msg in E. destruct E as [E|(sym & b1 & E1 & E)]; [now apply decode_msg in E|].
      destruct (sym <=? 15). { rewrite SETI in E. revert E. apply CONT. now rewrite upd_length. }
      destruct (sym =? 16). { cbn [ensure] in E. apply bind_msg in E. destruct E as [E|(u & b2 & E2 & E)]; [discriminate E|].
        apply bind_msg in E. destruct E as [E|(n & b3 & E3 & E)]; [apply read_part_msg in E; [exact E|exact NK|lia]|]. revert E. now apply CONT. }
      destruct (sym =? 17). { apply bind_msg in E. destruct E as [E|(n & b3 & E3 & E)]; [apply read_part_msg in E; [exact E|exact NK|lia]|]. revert E. now apply CONT. }
      destruct (sym =? 18). { apply bind_msg in E. destruct E as [E|(n & b3 & E3 & E)]; [apply read_part_msg in E; [exact E|exact NK|lia]|]. revert E. now apply CONT. }
      discriminate E.
  Qed.

  Lemma lens_none_msg fuel lens bs s bs' : (0 < len)%nat -> List.length lens = len ->
    read_lens_loop (rbl k) (S fuel) t len 0 None 0 lens bs = (Err (EMsg s), bs') ->
    s = "no value to copy"%string /\ exists w, bs = w ++ bs' /\ rfc_code cl 16 = Some w.
  Proof.
    intros Hi HL E. cbn [read_lens_loop] in E.
    assert (CONT : forall (i' : nat) v rl' lens' bs, List.length lens' = len ->
               (if Nat.leb len i' then ret (rl', lens') else read_lens_loop (rbl k) fuel t len i' (Some v) rl' lens') bs <> (Err (EMsg s), bs')).
    { intros i' v' rl' lens' bs0 HL' E'. destruct (Nat.leb_spec len i'); [discriminate E'|]. revert E'. now apply lens_some_msg. }
    assert (SETI : forall x, set_idx lens 0 x = Ok (upd lens 0 x)) by (intro; apply set_idx_ok; lia).
    change (0 <? 0) with false in E. cbn iota in E.
    apply bind_msg in E. destruct E as [E|(sym & b1 & E1 & E)]; [now apply decode_msg in E|].
    destruct (sym <=? 15). { rewrite SETI in E. exfalso. revert E. apply CONT. now rewrite upd_length. }
    destruct (N.eqb_spec sym 16) as [->|N16].
    { cbn [ensure] in E. apply bind_msg in E. destruct E as [E|(u & b2 & E2 & E)]; [|discriminate E2]. unfold fail in E. injection E as <- <-. split; [reflexivity|].
      apply (decode_symbol_spec k cl t) in E1; [|exact HT]. exact E1. }
    destruct (sym =? 17). { apply bind_msg in E. destruct E as [E|(n & b3 & E3 & E)]; exfalso; [apply read_part_msg in E; [exact E|exact NK|lia]|]. revert E. now apply CONT. }
    destruct (sym =? 18). { apply bind_msg in E. destruct E as [E|(n & b3 & E3 & E)]; exfalso; [apply read_part_msg in E; [exact E|exact NK|lia]|]. revert E. now apply CONT. }
    discriminate E.
  Qed.

  Lemma lens_copy fuel lens w bs' : rfc_code cl 16 = Some w ->
    read_lens_loop (rbl k) (S fuel) t len 0 None 0 lens (w ++ bs') = (Err (EMsg "no value to copy"), bs').
  Proof.
    intro HC. cbn [read_lens_loop]. change (0 <? 0) with false. cbn iota.
    assert (E : decode_symbol (rbl k) t (w ++ bs') = (Ok 16, bs')) by (apply (decode_symbol_spec k cl t); eauto). rewrite (bind_ok _ _ _ _ _ E). reflexivity.
  Qed.

  (** The entries one item stands for, after the length [rv], and the length it leaves behind. *)
  Inductive one_item : option N -> cl_item -> N -> nat -> Prop :=
  | OI_len rv l : l <= 15 -> one_item rv (CLen l) l 1
  | OI_copy p n : 3 <= n <= 6 -> one_item (Some p) (CCopy n) p (N.to_nat n)
  | OI_zeros3 rv n : 3 <= n <= 10 -> one_item rv (CZeros3 n) 0 (N.to_nat n)
  | OI_zeros11 rv n : 11 <= n <= 138 -> one_item rv (CZeros11 n) 0 (N.to_nat n).

  (** With [n] entries filled or pending, more than [len] are reached by the items in [w], and not earlier. *)
  Inductive over : option N -> nat -> list bool -> Prop :=
  | OV_done rv n : (len < n)%nat -> over rv n []
  | OV_item rv n i v m w1 w2 : (n < len)%nat -> one_item rv i v m -> item_bits cl i w1 -> over (Some v) (n + m) w2 -> over rv n (w1 ++ w2).

  Lemma lens_over fuel : forall (rv : option N) (rl : N) (pre : list N),
    (List.length pre < len)%nat ->
    (2 * (len - List.length pre) + (if (rl =? 0)%N then 1 else 0) <= fuel)%nat ->
    (rl <> 0 -> rv <> None) ->
    forall bs bs',
    (exists r lens', read_lens_loop (rbl k) fuel t len (List.length pre) rv rl (pre ++ repeat 0 (len - List.length pre)) bs = (Ok (r, lens'), bs') /\ r <> 0)
    <-> exists w, bs = w ++ bs' /\ over rv (List.length pre + N.to_nat rl) w.
  Proof.
    induction fuel as [|fuel IH]; intros rv rl pre Hi Hf Hrv bs bs'.
    { destruct (rl =? 0); lia. }
    cbn [read_lens_loop].
    set (cont := fun i run_val run_len code_lens => if Nat.leb len i then ret (run_len, code_lens)
                   else read_lens_loop (rbl k) fuel t len i run_val run_len code_lens).
    assert (STEP : forall rv rl x, (rl <> 0 -> rv = Some x) -> forall bs bs',
              (exists r lens', cont (List.length pre + 1)%nat rv rl ((pre ++ [x]) ++ repeat 0 (len - (List.length pre + 1))) bs = (Ok (r, lens'), bs') /\ r <> 0)
              <-> exists w, bs = w ++ bs' /\ over rv (List.length pre + 1 + N.to_nat rl) w).
    { clear bs bs'. intros rv0 rl0 x Hx bs bs'. unfold cont.
      destruct (Nat.leb_spec len (List.length pre + 1)) as [L|L].
      - unfold ret. split.
        + intros (r & lens' & E & NR). inversion E; subst. exists []. split; [reflexivity|]. apply OV_done. lia.
        + intros (w & -> & HO). inversion HO as [rv1 n1 LT|rv1 n1 i v m w1 w2 LT _ _ _]; subst; [|lia]. exists rl0. eexists. split; [reflexivity|lia].
      - replace (len - (List.length pre + 1))%nat with (len - List.length (pre ++ [x]))%nat
          by (rewrite app_length; cbn; lia).
        replace (List.length pre + 1)%nat with (List.length (pre ++ [x])) by (rewrite app_length; cbn; lia).
        apply IH.
        + rewrite app_length. cbn. lia.
        + rewrite app_length. cbn. destruct (rl0 =? 0), (rl =? 0); lia.
        + intros Hn. rewrite (Hx Hn). discriminate. }
    assert (SPLIT : repeat 0 (len - List.length pre) = 0 :: repeat 0 (len - (List.length pre + 1))).
    { replace (len - List.length pre)%nat with (S (len - (List.length pre + 1))) by lia. reflexivity. }
    assert (SETI : forall x, set_idx (pre ++ repeat 0 (len - List.length pre)) (List.length pre) x
                     = Ok ((pre ++ [x]) ++ repeat 0 (len - (List.length pre + 1)))).
    { intro x. unfold set_idx. rewrite app_length, repeat_length.
      replace (Nat.ltb _ _) with true by (symmetry; apply Nat.ltb_lt; lia).
      rewrite SPLIT, upd_mid. reflexivity. }
    destruct (N.ltb_spec 0 rl) as [Hrl|Hrl].
    - destruct rv as [v|]; [|exfalso; apply Hrv; [lia|reflexivity]].
      rewrite SETI. unfold bind at 1, lift at 1. fold cont.
      refine (iff_trans (STEP (Some v) (rl - 1) v _ _ _) _); [reflexivity|].
      replace (List.length pre + 1 + N.to_nat (rl - 1))%nat with (List.length pre + N.to_nat rl)%nat by lia. reflexivity.
    - assert (rl = 0) as -> by lia. clear Hrl Hrv. change (N.to_nat 0) with 0%nat. rewrite Nat.add_0_r.
      assert (RUN : forall v n, 0 < n -> forall bs bs',
                (exists r lens', cont (List.length pre) (Some v) n (pre ++ repeat 0 (len - List.length pre)) bs = (Ok (r, lens'), bs') /\ r <> 0)
                <-> exists w, bs = w ++ bs' /\ over (Some v) (List.length pre + N.to_nat n) w).
      { clear bs bs'. intros v n Hn bs bs'. unfold cont.
        replace (Nat.leb len (List.length pre)) with false by (symmetry; apply Nat.leb_gt; lia).
        apply IH; [lia| |discriminate]. change (0 =? 0) with true in Hf. cbn iota in Hf.
        destruct (N.eqb_spec n 0); lia. }
      split.
      + intros (r & lens' & E & NR). apply bind_inv in E. destruct E as (sym & bs1 & ED & E).
        apply (decode_symbol_spec k cl t) in ED; [|exact HT]. destruct ED as (w1 & -> & HC).
        assert (SB := rfc_code_bound _ _ _ HC). rewrite HCL in SB.
        destruct (N.leb_spec sym 15) as [L15|L15].
        { rewrite SETI in E. unfold bind at 1, lift at 1 in E. fold cont in E. rewrite N.mod_small in E by lia.
          destruct (proj1 (STEP (Some sym) 0 sym ltac:(congruence) bs1 bs') (ex_intro _ r (ex_intro _ lens' (conj E NR)))) as (w2 & -> & HO).
          exists (w1 ++ w2). split; [apply app_assoc|]. change (N.to_nat 0) with 0%nat in HO. rewrite Nat.add_0_r in HO. apply (OV_item _ _ (CLen sym) sym 1); [exact Hi|now constructor|now constructor|exact HO]. }
        destruct (N.eqb_spec sym 16) as [->|N16].
        { destruct rv as [p|]; [|discriminate]. cbn [ensure] in E. unfold bind at 1, ret at 1 in E.
          apply bind_inv in E. destruct E as (n & bs2 & ER & E). fold cont in E. apply pspec_read_part in ER; [|lia]. destruct ER as (w2 & -> & Hn & ->). change (2 ^ 2) with 4 in Hn.
          destruct (proj1 (RUN p (n + 3) ltac:(lia) bs2 bs') (ex_intro _ r (ex_intro _ lens' (conj E NR)))) as (w3 & -> & HO).
          exists ((w1 ++ lsb (N.to_nat 2) n) ++ w3). split; [now rewrite <- !app_assoc|]. eapply OV_item; [exact Hi|apply (OI_copy p (n + 3)); lia| |exact HO].
          assert (HI : item_bits cl (CCopy (n + 3)) (w1 ++ lsb 2 (n + 3 - 3))) by now constructor. replace (n + 3 - 3) with n in HI by lia. exact HI. }
        destruct (N.eqb_spec sym 17) as [->|N17].
        { apply bind_inv in E. destruct E as (n & bs2 & ER & E). fold cont in E. apply pspec_read_part in ER; [|lia]. destruct ER as (w2 & -> & Hn & ->). change (2 ^ 3) with 8 in Hn.
          destruct (proj1 (RUN 0 (n + 3) ltac:(lia) bs2 bs') (ex_intro _ r (ex_intro _ lens' (conj E NR)))) as (w3 & -> & HO).
          exists ((w1 ++ lsb (N.to_nat 3) n) ++ w3). split; [now rewrite <- !app_assoc|]. eapply OV_item; [exact Hi|apply (OI_zeros3 rv (n + 3)); lia| |exact HO].
          assert (HI : item_bits cl (CZeros3 (n + 3)) (w1 ++ lsb 3 (n + 3 - 3))) by now constructor. replace (n + 3 - 3) with n in HI by lia. exact HI. }
        destruct (N.eqb_spec sym 18) as [->|N18].
        { apply bind_inv in E. destruct E as (n & bs2 & ER & E). fold cont in E. apply pspec_read_part in ER; [|lia]. destruct ER as (w2 & -> & Hn & ->). change (2 ^ 7) with 128 in Hn.
          destruct (proj1 (RUN 0 (n + 11) ltac:(lia) bs2 bs') (ex_intro _ r (ex_intro _ lens' (conj E NR)))) as (w3 & -> & HO).
          exists ((w1 ++ lsb (N.to_nat 7) n) ++ w3). split; [now rewrite <- !app_assoc|]. eapply OV_item; [exact Hi|apply (OI_zeros11 rv (n + 11)); lia| |exact HO].
          assert (HI : item_bits cl (CZeros11 (n + 11)) (w1 ++ lsb 7 (n + 11 - 11))) by now constructor. replace (n + 11 - 11) with n in HI by lia. exact HI. }
        lia.
      + intros (w & -> & HO). inversion HO as [rv1 n1 LT|rv1 n1 i v m w1 w2 LT HI HB HO2]; subst; [lia|].
        assert (DEC : forall s w rest, rfc_code cl s = Some w -> decode_symbol (rbl k) t (w ++ rest) = (Ok s, rest)).
        { intros s w0 rest0 HC. apply (decode_symbol_spec k cl t); eauto. }
        assert (RP : forall n v rest, n <= 16 -> v < 2 ^ n -> read_part (rbl k) n (lsb (N.to_nat n) v ++ rest) = (Ok v, rest)).
        { intros n v0 rest0 Hn Hv. apply pspec_read_part; [assumption|]. eauto. }
        rewrite <- app_assoc. destruct HI as [rv l Hl|p n Hn|rv n Hn|rv n Hn]; inversion HB; subst.
        * rewrite (bind_ok _ _ _ _ _ (DEC l w1 _ H0)). replace (l <=? 15) with true by (symmetry; apply N.leb_le; lia).
          unfold bind at 1, lift at 1. rewrite SETI. fold cont. rewrite N.mod_small by lia. apply STEP; [congruence|]. exists w2. split; [reflexivity|]. change (N.to_nat 0) with 0%nat. now rewrite Nat.add_0_r.
        * rewrite <- app_assoc, (bind_ok _ _ _ _ _ (DEC 16 w _ H0)). change (16 <=? 15) with false. change (16 =? 16) with true. cbn iota. cbn [ensure]. unfold bind at 1, ret at 1.
          rewrite (bind_ok _ _ _ _ _ (RP 2 (n - 3) (w2 ++ bs') ltac:(lia) ltac:(change (2 ^ 2) with 4; lia))). fold cont. replace (n - 3 + 3) with n by lia. apply RUN; [lia|]. exists w2. split; [reflexivity|exact HO2].
        * rewrite <- app_assoc, (bind_ok _ _ _ _ _ (DEC 17 w _ H0)). change (17 <=? 15) with false. change (17 =? 16) with false. change (17 =? 17) with true. cbn iota.
          rewrite (bind_ok _ _ _ _ _ (RP 3 (n - 3) (w2 ++ bs') ltac:(lia) ltac:(change (2 ^ 3) with 8; lia))). fold cont. replace (n - 3 + 3) with n by lia. apply RUN; [lia|]. exists w2. split; [reflexivity|exact HO2].
        * rewrite <- app_assoc, (bind_ok _ _ _ _ _ (DEC 18 w _ H0)). change (18 <=? 15) with false. change (18 =? 16) with false. change (18 =? 17) with false. change (18 =? 18) with true. cbn iota.
          rewrite (bind_ok _ _ _ _ _ (RP 7 (n - 11) (w2 ++ bs') ltac:(lia) ltac:(change (2 ^ 7) with 128; lia))). fold cont. replace (n - 11 + 11) with n by lia. apply RUN; [lia|]. exists w2. split; [reflexivity|exact HO2].
  Qed.

  Lemma one_expand rv i v m is out : one_item rv i v m -> expand (Some v) is out -> exists o1, List.length o1 = m /\ expand rv (i :: is) (o1 ++ out).
  Proof.
    intros H HE. destruct H as [rv l Hl|p n Hn|rv n Hn|rv n Hn].
    - exists [l]. split; [reflexivity|]. now constructor.
    - exists (repeat p (N.to_nat n)). split; [apply repeat_length|]. now constructor.
    - exists (repeat 0 (N.to_nat n)). split; [apply repeat_length|]. now constructor.
    - exists (repeat 0 (N.to_nat n)). split; [apply repeat_length|]. now constructor.
  Qed.
  Lemma expand_one rv i is out : expand rv (i :: is) out -> exists v m o1 o2, one_item rv i v m /\ out = o1 ++ o2 /\ List.length o1 = m /\ expand (Some v) is o2.
  Proof.
    intro H. inversion H; subst.
    - exists l, 1%nat, [l], out0. repeat split; auto. now constructor.
    - exists p, (N.to_nat n), (repeat p (N.to_nat n)), out0. repeat split; auto using repeat_length; try lia. now constructor.
    - exists 0, (N.to_nat n), (repeat 0 (N.to_nat n)), out0. repeat split; auto using repeat_length; try lia. now constructor.
    - exists 0, (N.to_nat n), (repeat 0 (N.to_nat n)), out0. repeat split; auto using repeat_length; try lia. now constructor.
  Qed.
  Lemma one_det rv i v m v' m' : one_item rv i v m -> one_item rv i v' m' -> v = v' /\ m = m'.
  Proof. intros H H'. inversion H; subst; inversion H'; subst; auto. Qed.

  Lemma over_items rv n w : (n < len)%nat -> over rv n w -> exists items i out out', expand rv items out /\ expand rv (items ++ [i]) out' /\ items_bits cl (items ++ [i]) w
    /\ (n + List.length out < len < n + List.length out')%nat.
  Proof.
    intros HN HO. induction HO as [rv n LT|rv n i v m w1 w2 LT HI HB HO IH]; [lia|].
    inversion HO as [rv1 n1 LT2|rv1 n1 i2 v2 m2 x1 x2 LT2 HI2 HB2 HO2]; subst.
    - destruct (one_expand _ _ _ _ [] [] HI (EX_nil _)) as (o1 & L1 & X1). exists [], i, [], (o1 ++ []). split; [constructor|]. split; [exact X1|]. split; [constructor; [exact HB|constructor]|]. rewrite app_length. cbn [List.length]. lia.
    - destruct (IH LT2) as (items & j & out & out' & H1 & H2 & H3 & H4). destruct (one_expand _ _ _ _ _ _ HI H1) as (o1 & L1 & X1). destruct (one_expand _ _ _ _ _ _ HI H2) as (o2 & L2' & X2).
      exists (i :: items), j, (o1 ++ out), (o2 ++ out'). split; [exact X1|]. split; [exact X2|]. split; [constructor; assumption|]. rewrite !app_length. lia.
  Qed.

  Lemma items_over items : forall rv n i out out' w, expand rv items out -> expand rv (items ++ [i]) out' -> items_bits cl (items ++ [i]) w ->
    (n + List.length out < len < n + List.length out')%nat -> over rv n w.
  Proof.
    induction items as [|j items IH]; intros rv n i out out' w H1 H2 H3 H4.
    - cbn [app] in *. inversion H3 as [|? ? w1 w2 HB HB2]; subst. inversion HB2; subst. apply expand_one in H2. destruct H2 as (v & m & o1 & o2 & HI & -> & L1 & H2). inversion H2; subst.
      apply (OV_item rv n i v (List.length o1)); [lia|exact HI|exact HB|]. apply OV_done. rewrite app_length in H4. cbn [List.length] in H4. lia.
    - cbn [app] in *. inversion H3 as [|? ? w1 w2 HB HB2]; subst. apply expand_one in H2. destruct H2 as (v & m & o1 & o2 & HI & -> & L1 & H2).
      apply expand_one in H1. destruct H1 as (v' & m' & o1' & o2' & HI' & -> & L1' & H1). destruct (one_det _ _ _ _ _ _ HI HI') as [<- <-].
      apply (OV_item rv n j v m); [rewrite app_length in H4; lia|exact HI|exact HB|]. rewrite !app_length in H4. eapply IH; [exact H1|exact H2|exact HB2|]. lia.
  Qed.
End LensMsg.

(** ** Headers *)
Lemma header_msg k bs s bs' : no_msg k -> read_codes (rbl k) bs = (Err (EMsg s), bs') -> exists w, bs = w ++ bs' /\ wrong_header s w.
Proof.
  intros NK E. unfold read_codes in E.
  apply bind_msg in E. destruct E as [E|(hlit & bs1 & R1 & E)]; [apply read_part_msg in E; [contradiction|exact NK|lia]|].
  apply bind_msg in E. destruct E as [E|(hdist & bs2 & R2 & E)]; [apply read_part_msg in E; [contradiction|exact NK|lia]|].
  apply bind_msg in E. destruct E as [E|(hclen & bs3 & R3 & E)]; [apply read_part_msg in E; [contradiction|exact NK|lia]|].
  apply bind_msg in E. destruct E as [E|(a0 & bs4 & R4 & E)]; [apply read_part_msg in E; [contradiction|exact NK|lia]|].
  rewrite set_idx_ok in E by (cbn [List.length repeat]; lia). unfold bind at 1, lift at 1 in E.
  apply bind_msg in E. destruct E as [E|(a1 & bs5 & R5 & E)]; [apply read_part_msg in E; [contradiction|exact NK|lia]|].
  rewrite set_idx_ok in E by (rewrite ?upd_length; cbn [List.length repeat]; lia). unfold bind at 1, lift at 1 in E.
  apply bind_msg in E. destruct E as [E|(a2 & bs6 & R6 & E)]; [apply read_part_msg in E; [contradiction|exact NK|lia]|].
  rewrite set_idx_ok in E by (rewrite ?upd_length; cbn [List.length repeat]; lia). unfold bind at 1, lift at 1 in E.
  apply bind_msg in E. destruct E as [E|(a3 & bs7 & R7 & E)]; [apply read_part_msg in E; [contradiction|exact NK|lia]|].
  rewrite set_idx_ok in E by (rewrite ?upd_length; cbn [List.length repeat]; lia). unfold bind at 1, lift at 1 in E.
  apply pspec_read_part in R1; [|lia]. destruct R1 as (w1 & -> & H1 & ->).
  apply pspec_read_part in R2; [|lia]. destruct R2 as (w2 & -> & H2 & ->).
  apply pspec_read_part in R3; [|lia]. destruct R3 as (w3 & -> & H3 & ->).
  apply pspec_read_part in R4; [|lia]. destruct R4 as (w4 & -> & H4 & ->).
  apply pspec_read_part in R5; [|lia]. destruct R5 as (w5 & -> & H5 & ->).
  apply pspec_read_part in R6; [|lia]. destruct R6 as (w6 & -> & H6 & ->).
  apply pspec_read_part in R7; [|lia]. destruct R7 as (w7 & -> & H7 & ->).
  change (2 ^ 5) with 32 in *. change (2 ^ 4) with 16 in *. change (2 ^ 3) with 8 in *.
  rewrite !N.mod_small in E by lia. fold (cl_head a0 a1 a2 a3) in E.
  replace (N.to_nat (hclen + 4) - 4)%nat with (N.to_nat hclen) in E by lia.
  apply bind_msg in E. destruct E as [E|(cll & bs8 & R8 & E)]; [apply cl_loop_msg in E; [contradiction|exact NK|lia|reflexivity]|].
  apply pspec_cl_loop in R8; [|lia|reflexivity]. destruct R8 as (w8 & -> & vs & LV & FV & -> & ECLL).
  rewrite cl_head_put in ECLL by lia. set (cls := a0 :: a1 :: a2 :: a3 :: vs) in *.
  assert (LC : List.length cls = (4 + N.to_nat hclen)%nat) by (unfold cls; cbn [List.length]; lia). subst cll.
  assert (FC : Forall (fun c => c < 8) cls). { unfold cls. repeat (constructor; [assumption|]). exact FV. }
  assert (LL := cl_lens_length cls).
  apply bind_msg in E. destruct E as [E|(ct & bx & ECT & E)].
  { assert (EI := E). apply lift_msg in E. assert (bs' = bs8) by (unfold lift in EI; congruence). subst bs'. destruct (tree_new_msg (cl_lens cls) ltac:(lia)) as [(t & E' & _)|(m & E' & B)]; rewrite E' in E; [discriminate E|]. injection E as <-.
    exists (lsb 5 hlit ++ lsb 5 hdist ++ lsb 4 hclen ++ flat_map (lsb 3) cls). split; [unfold cls; cbn [flat_map]; rewrite <- !app_assoc; reflexivity|].
    apply WH_code; try assumption. lia. }
  apply lift_inv in ECT. destruct ECT as [ECT ->]. assert (CC : complete (cl_lens cls)) by (apply tree_of_iff; [lia|eauto]).
  assert (TO : tree_of (cl_lens cls) ct) by (split; [exact ECT|lia]).
  set (pre := lsb 5 hlit ++ lsb 5 hdist ++ lsb 4 hclen ++ flat_map (lsb 3) cls).
  assert (EPRE : forall t, lsb (N.to_nat 5) hlit ++ lsb (N.to_nat 5) hdist ++ lsb (N.to_nat 4) hclen ++ lsb (N.to_nat 3) a0 ++ lsb (N.to_nat 3) a1 ++ lsb (N.to_nat 3) a2 ++ lsb (N.to_nat 3) a3 ++ flat_map (lsb 3) vs ++ t = pre ++ t).
  { intro t. unfold pre, cls. cbn [flat_map]. rewrite <- !app_assoc. reflexivity. }
  rewrite EPRE. clear EPRE.
  assert (WRONG : forall ws, wrong_lengths (cl_lens cls) (hlit + 257) (hdist + 1) s ws -> wrong_header s (pre ++ ws)).
  { intros ws HW. unfold pre. rewrite <- !app_assoc. apply WH_lengths; try assumption. lia. }
  enough (G : exists ws, bs8 = ws ++ bs' /\ wrong_lengths (cl_lens cls) (hlit + 257) (hdist + 1) s ws).
  { destruct G as (ws & -> & HW). exists (pre ++ ws). split; [apply app_assoc|now apply WRONG]. }
  clear WRONG pre. remember (N.to_nat (hlit + 257)) as nl eqn:Enl. remember (N.to_nat (hdist + 1)) as nd eqn:End.
  apply bind_msg in E. destruct E as [E|([rl lens] & bs9 & R9 & E)].
  { replace (2 * (nl + nd) + 1)%nat with (S (2 * (nl + nd))) in E by lia. apply (lens_none_msg k (cl_lens cls) ct (nl + nd) NK TO LL) in E; [|lia|apply repeat_length].
    destruct E as (-> & w & -> & HC). exists w. split; [reflexivity|]. now constructor. }
  apply bind_msg in E. destruct E as [E|(u & bx & EN & E)].
  { destruct (N.eqb_spec rl 0) as [->|NR]; [discriminate E|]. cbn [ensure] in E. unfold fail in E. injection E as <- <-.
    assert (O := proj1 (lens_over k (cl_lens cls) ct (nl + nd) TO LL (2 * (nl + nd) + 1) None 0 [] ltac:(cbn [List.length]; lia) ltac:(change (0 =? 0) with true; cbn [List.length]; cbn iota; lia) ltac:(congruence) bs8 bs9)).
    cbn [List.length app] in O. rewrite Nat.sub_0_r in O. destruct O as (w & -> & HO); [eauto|]. change (0 + N.to_nat 0)%nat with 0%nat in HO.
    apply over_items in HO; [|exact LL|lia]. destruct HO as (items & i & out & out' & X1 & X2 & X3 & X4). exists w. split; [reflexivity|]. apply (WL_run _ _ _ items i out out'); try assumption. lia. }
  apply ensure_inv in EN. destruct EN as [EN ->]. apply N.eqb_eq in EN. subst rl.
  apply (read_lens_start k (cl_lens cls)) in R9; [|exact TO|exact LL|lia]. destruct R9 as (w9 & items & -> & HE & HB & HL).
  assert (LF : List.length (firstn nl lens) = nl) by (rewrite firstn_length; lia).
  assert (LS : List.length (skipn nl lens) = nd) by (rewrite skipn_length; lia).
  rewrite <- (firstn_skipn nl lens) in HE. remember (firstn nl lens) as ll eqn:ELL. remember (skipn nl lens) as dl eqn:EDL.
  apply bind_msg in E. destruct E as [E|(lt & bx & ELT & E)].
  { assert (EI := E). apply lift_msg in E. assert (bs' = bs9) by (unfold lift in EI; congruence). subst bs'. destruct (tree_new_msg ll ltac:(lia)) as [(t & E' & _)|(m & E' & B)]; rewrite E' in E; [discriminate E|]. injection E as <-.
    exists w9. split; [reflexivity|]. apply (WL_literals _ _ _ items ll dl); try assumption; lia. }
  apply lift_inv in ELT. destruct ELT as [ELT ->]. assert (CL : complete ll) by (apply tree_of_iff; [lia|eauto]).
  destruct (match dl with [x] => 0 =? x | _ => false end) eqn:ED; [discriminate E|].
  assert (NZ : dl <> [0]). { intro HZ. apply is_single_zero in HZ. congruence. }
  apply bind_msg in E. destruct E as [E|(dt & bx & EDT & E)]; [|discriminate E].
  assert (EI := E). apply lift_msg in E. assert (bs' = bs9) by (unfold lift in EI; congruence). subst bs'. destruct (dist_tree_msg dl ltac:(lia) NZ) as [(t & E' & _)|(m & E' & ND & B)]; rewrite E' in E; [discriminate E|]. injection E as <-.
  exists w9. split; [reflexivity|]. apply (WL_distances _ _ _ items ll dl); try assumption; lia.
Qed.

(** The start of any header. *)
Lemma header_start k hlit hdist hclen cls t : hlit < 32 -> hdist < 32 -> hclen < 16 -> N.of_nat (List.length cls) = hclen + 4 -> Forall (fun c => c < 8) cls ->
  read_codes (rbl k) (lsb 5 hlit ++ lsb 5 hdist ++ lsb 4 hclen ++ flat_map (lsb 3) cls ++ t) =
  (code_len_code <- lift (tree_new (cl_lens cls)) ;;
   let code_lens_len := (N.to_nat (hlit + 257) + N.to_nat (hdist + 1))%nat in
   r <- read_lens_loop (rbl k) (2 * code_lens_len + 1) code_len_code code_lens_len 0 None 0 (repeat 0 code_lens_len) ;;
   let '(run_len, code_lens) := r in
   ensure (run_len =? 0) "run exceeds number of codes" ;;;
   lit_len_code <- lift (tree_new (firstn (N.to_nat (hlit + 257)) code_lens)) ;;
   let dist_code_len := skipn (N.to_nat (hlit + 257)) code_lens in
   if match dist_code_len with [x] => 0 =? x | _ => false end
   then ret (lit_len_code, None)
   else dist_tree <- lift (dist_tree_of dist_code_len) ;; ret (lit_len_code, Some dist_tree)) t.
Proof.
  intros H1 H2 H3 HC FC.
  assert (RP : forall n v rest, n <= 16 -> v < 2 ^ n -> read_part (rbl k) n (lsb (N.to_nat n) v ++ rest) = (Ok v, rest)).
  { intros n v rest0 Hn Hv. apply pspec_read_part; [assumption|]. eauto. }
  destruct cls as [|a0 [|a1 [|a2 [|a3 vs]]]]; cbn [List.length] in HC; try lia.
  inversion FC as [|? ? F0 FC0]; subst. inversion FC0 as [|? ? F1 FC1]; subst. inversion FC1 as [|? ? F2 FC2]; subst.
  inversion FC2 as [|? ? F3 FC3]; subst. clear FC0 FC1 FC2.
  cbn [flat_map]. rewrite <- !app_assoc.
  assert (P5 : 2 ^ 5 = 32) by reflexivity. assert (P4 : 2 ^ 4 = 16) by reflexivity. assert (P3 : 2 ^ 3 = 8) by reflexivity.
  unfold read_codes.
  rewrite (bind_ok _ _ _ _ _ (RP 5 hlit _ ltac:(lia) ltac:(lia))).
  rewrite (bind_ok _ _ _ _ _ (RP 5 hdist _ ltac:(lia) ltac:(lia))).
  rewrite (bind_ok _ _ _ _ _ (RP 4 hclen _ ltac:(lia) ltac:(lia))).
  rewrite (bind_ok _ _ _ _ _ (RP 3 a0 _ ltac:(lia) ltac:(lia))).
  erewrite bind_ok; [|apply lift_ok; apply set_idx_ok; cbn [List.length repeat]; lia].
  rewrite (bind_ok _ _ _ _ _ (RP 3 a1 _ ltac:(lia) ltac:(lia))).
  erewrite bind_ok; [|apply lift_ok; apply set_idx_ok; rewrite ?upd_length; cbn [List.length repeat]; lia].
  rewrite (bind_ok _ _ _ _ _ (RP 3 a2 _ ltac:(lia) ltac:(lia))).
  erewrite bind_ok; [|apply lift_ok; apply set_idx_ok; rewrite ?upd_length; cbn [List.length repeat]; lia].
  rewrite (bind_ok _ _ _ _ _ (RP 3 a3 _ ltac:(lia) ltac:(lia))).
  erewrite bind_ok; [|apply lift_ok; apply set_idx_ok; rewrite ?upd_length; cbn [List.length repeat]; lia].
  rewrite !N.mod_small by lia.
  fold (cl_head a0 a1 a2 a3).
  replace (N.to_nat (hclen + 4) - 4)%nat with (N.to_nat hclen) by lia.
  assert (R8 : read_cl_loop (rbl k) (seq 0 (N.to_nat hclen)) (cl_head a0 a1 a2 a3) (flat_map (lsb 3) vs ++ t)
               = (Ok (cl_lens (a0 :: a1 :: a2 :: a3 :: vs)), t)).
  { apply pspec_cl_loop; [lia|reflexivity|]. exists (flat_map (lsb 3) vs). split; [reflexivity|].
    exists vs. split; [lia|]. split; [assumption|]. split; [reflexivity|]. symmetry. apply cl_head_put. lia. }
  rewrite (bind_ok _ _ _ _ _ R8). reflexivity.
Qed.

Lemma bind_err {S A B} (m : M S A) (g : A -> M S B) s e s1 : m s = (Err e, s1) -> bind m g s = (Err e, s1).
Proof. intro E. unfold bind. now rewrite E. Qed.

Lemma header_wrong k s w bs' : wrong_header s w -> read_codes (rbl k) (w ++ bs') = (Err (EMsg s), bs').
Proof.
  intros [hlit hdist hclen cls msg H1 H2 H3 HC FC HB|hlit hdist hclen cls msg ws H1 H2 H3 HC FC CC HW]; rewrite <- !app_assoc, header_start by assumption; assert (LL := cl_lens_length cls).
  - apply bind_err. unfold lift. rewrite (tree_new_bad _ msg); [reflexivity|lia|exact HB].
  - assert (HT := CC). apply tree_of_iff in HT; [|lia]. destruct HT as (ct & ECT). rewrite (bind_ok _ _ _ _ _ (lift_ok _ _ _ ECT)). cbv zeta. assert (TO : tree_of (cl_lens cls) ct) by (split; [exact ECT|lia]).
    assert (READ : forall items ll dl, expand None items (ll ++ dl) -> items_bits (cl_lens cls) items ws -> N.of_nat (List.length ll) = hlit + 257 -> N.of_nat (List.length dl) = hdist + 1 ->
      read_lens_loop (rbl k) (2 * (N.to_nat (hlit + 257) + N.to_nat (hdist + 1)) + 1) ct (N.to_nat (hlit + 257) + N.to_nat (hdist + 1)) 0 None 0 (repeat 0 (N.to_nat (hlit + 257) + N.to_nat (hdist + 1))) (ws ++ bs') = (Ok (0, ll ++ dl), bs')
      /\ firstn (N.to_nat (hlit + 257)) (ll ++ dl) = ll /\ skipn (N.to_nat (hlit + 257)) (ll ++ dl) = dl).
    { intros items ll dl HE HB HL HD. split; [|split].
      - apply (read_lens_start k (cl_lens cls)); [exact TO|exact LL|lia|]. exists ws, items. split; [reflexivity|]. split; [exact HE|]. split; [exact HB|]. rewrite app_length. lia.
      - rewrite <- HL, Nat2N.id, firstn_app, Nat.sub_diag, firstn_O, app_nil_r. apply firstn_all.
      - rewrite <- HL, Nat2N.id, skipn_app, Nat.sub_diag, skipn_all. reflexivity. }
    destruct HW as [w16 HC16|items i out out' ws X1 X2 X3 X4|items ll dl ws msg HE HB HL HD BC|items ll dl ws msg HE HB HL HD CL ND BC].
    + apply bind_err. replace (2 * (N.to_nat (hlit + 257) + N.to_nat (hdist + 1)) + 1)%nat with (S (2 * (N.to_nat (hlit + 257) + N.to_nat (hdist + 1)))) by lia. now apply (lens_copy k (cl_lens cls) ct _ TO).
    + assert (O := proj2 (lens_over k (cl_lens cls) ct (N.to_nat (hlit + 257) + N.to_nat (hdist + 1)) TO LL (2 * (N.to_nat (hlit + 257) + N.to_nat (hdist + 1)) + 1) None 0 []
        ltac:(cbn [List.length]; lia) ltac:(change (0 =? 0) with true; cbn [List.length]; cbn iota; lia) ltac:(congruence) (ws ++ bs') bs')).
      cbn [List.length app] in O. rewrite Nat.sub_0_r in O. destruct O as (r & lens' & E & NR).
      { exists ws. split; [reflexivity|]. apply (items_over _ _ LL items _ _ i out out'); [exact X1|exact X2|exact X3|lia]. }
      rewrite (bind_ok _ _ _ _ _ E). cbv beta iota. apply bind_err. destruct (N.eqb_spec r 0); [contradiction|]. reflexivity.
    + destruct (READ _ _ _ HE HB HL HD) as (R & EF & ES). rewrite (bind_ok _ _ _ _ _ R). cbv beta iota. erewrite bind_ok; [|rewrite N.eqb_refl; reflexivity]. rewrite EF. apply bind_err.
      unfold lift. rewrite (tree_new_bad _ msg); [reflexivity|lia|exact BC].
    + destruct (READ _ _ _ HE HB HL HD) as (R & EF & ES). rewrite (bind_ok _ _ _ _ _ R). cbv beta iota. erewrite bind_ok; [|rewrite N.eqb_refl; reflexivity]. rewrite EF, ES.
      assert (HT := CL). apply tree_of_iff in HT; [|lia]. destruct HT as (lt & ELT). rewrite (bind_ok _ _ _ _ _ (lift_ok _ _ _ ELT)). cbv zeta.
      assert (NZ : dl <> [0]). { intros ->. apply ND. now left. }
      destruct (match dl with [x] => 0 =? x | _ => false end) eqn:ED; [apply is_single_zero in ED; contradiction|].
      apply bind_err. unfold lift. destruct (dist_tree_msg dl ltac:(lia) NZ) as [(t & _ & D)|(m & E' & _ & B)]; [contradiction|]. rewrite E'. now rewrite (bad_code_det _ _ _ B BC).
Qed.

(** ** Bodies *)
Definition dist_exact (dl : list N) (dt : option code_tree) : Prop :=
  match dt with
  | None => dl = [0]
  | Some t => dl <> [0] /\ exists lens', tree_of lens' t /\ dist_built dl lens' /\ forall w, (exists s, 30 <= s /\ rfc_code lens' s = Some w) <-> no_distance dl w
  end.

Lemma dist_exact_table dl dt : dist_exact dl dt -> dist_table dl dt.
Proof.
  destruct dt as [t|]; cbn.
  - intros (_ & lens' & H1 & H2 & _). eauto.
  - intros -> s. unfold rfc_code. destruct (N.to_nat s) as [|[|q]]; reflexivity.
Qed.

Lemma dummy_code a : (a < 31)%nat -> rfc_code (repeat 0 a ++ [1] ++ repeat 0 (30 - a) ++ [1]) 31 = Some [true].
Proof.
  intro H. do 31 (destruct a as [|a]; [vm_compute; reflexivity|]). lia.
Qed.

Lemma dist_tree_exact dl t : (1 <= List.length dl <= 32)%nat -> dl <> [0] -> dist_tree_of dl = Ok t -> dist_exact dl (Some t).
Proof.
  intros HL HZ E. split; [exact HZ|]. assert (NOT_SINGLE : ~ (exists a b, dl = repeat 0 a ++ [1] ++ repeat 0 b) -> tree_new dl = Ok t ->
    exists lens', tree_of lens' t /\ dist_built dl lens' /\ forall w, (exists s, 30 <= s /\ rfc_code lens' s = Some w) <-> no_distance dl w).
  { intros NS ET. exists dl. split; [split; [exact ET|lia]|]. split; [split; [lia|auto]|]. intro w. unfold no_distance. tauto. }
  assert (D := dist_tree_of_spec dl HL HZ). rewrite E in D. destruct D as (DO & _).
  unfold dist_tree_of in E.
  destruct (Nat.eqb_spec 1 (List.length (filter (fun x => x =? 1) dl))) as [E1|E1];
  [destruct (Nat.eqb_spec 0 (List.length (filter (fun x => 1 <? x) dl))) as [E2|E2]|]; cbn [andb] in E.
  2,3: apply NOT_SINGLE; [|exact E]; intros (a & b & H); assert (OO : ones_only dl) by (apply ones_only_shape; eauto); destruct OO; lia.
  clear NOT_SINGLE. assert (OO : ones_only dl) by (split; auto).
  apply ones_only_shape in OO. destruct OO as (a & b & ->).
  set (dl := repeat 0 a ++ [1] ++ repeat 0 b) in *.
  assert (LD : List.length dl = (a + 1 + b)%nat).
  { unfold dl. rewrite !app_length, !repeat_length. cbn. lia. }
  destruct (Nat.lt_ge_cases a 31) as [La|La].
  2:{ assert (a = 31%nat /\ b = 0%nat) as [-> ->] by lia. vm_compute in E. discriminate E. }
  set (lens' := firstn (Nat.min (List.length dl) 31) dl ++ repeat 0 (31 - Nat.min (List.length dl) 31) ++ [1]) in E.
  assert (EL : lens' = repeat 0 a ++ [1] ++ repeat 0 (30 - a) ++ [1]).
  { unfold lens'. rewrite LD. unfold dl at 1.
    rewrite firstn_app, firstn_repeat, repeat_length.
    replace (Nat.min (Nat.min (a + 1 + b) 31) a) with a by lia. rewrite <- app_assoc. f_equal.
    replace (Nat.min (a + 1 + b) 31 - a)%nat with (S (Nat.min b (30 - a))) by lia.
    cbn [app firstn]. f_equal. rewrite firstn_repeat, app_assoc, <- repeat_app. do 2 f_equal. lia. }
  rewrite EL in E. clear EL lens'. set (lens' := repeat 0 a ++ [1] ++ repeat 0 (30 - a) ++ [1]) in *.
  assert (LL : List.length lens' = 32%nat). { unfold lens'. rewrite !app_length, !repeat_length. cbn [List.length]. lia. }
  assert (TAIL : forall (suf : list N) s, (a < N.to_nat s)%nat -> nth_error (repeat 0 a ++ [1] ++ suf) (N.to_nat s) = nth_error suf (N.to_nat s - a - 1)).
  { intros suf s L. rewrite nth_error_app2 by (rewrite repeat_length; lia). rewrite repeat_length.
    replace (N.to_nat s - a)%nat with (S (N.to_nat s - a - 1)) at 1 by lia. reflexivity. }
  assert (DLZ : forall s, (a < N.to_nat s)%nat -> rfc_code dl s = None).
  { intros s L. unfold rfc_code, dl at 1. rewrite TAIL by assumption.
    destruct (nth_error (repeat 0 b) (N.to_nat s - a - 1)) as [x|] eqn:EN; [|reflexivity].
    apply nth_error_In in EN. apply repeat_spec in EN. now subst x. }
  assert (SAME : forall s, s <= 30 -> rfc_code lens' s = rfc_code dl s).
  { intros s Hs. destruct (Nat.le_gt_cases (N.to_nat s) a) as [L|L].
    - unfold dl, lens'. rewrite !rfc_code_single by auto. reflexivity.
    - rewrite DLZ by assumption. unfold rfc_code, lens' at 1. rewrite TAIL by assumption.
      rewrite nth_error_app1 by (rewrite repeat_length; lia). rewrite nth_error_repeat by lia. reflexivity. }
  exists lens'. split; [split; [exact E|lia]|]. split; [split; [lia|exact SAME]|].
  intro w. unfold no_distance. split.
  - intros (s & Hs & HC). destruct (N.le_gt_cases s 30) as [L|L].
    + left. exists s. split; [exact Hs|]. now rewrite <- SAME.
    + right. split; [|unfold dl; eauto]. assert (HB := rfc_code_bound _ _ _ HC). assert (s = 31) as -> by lia.
      unfold lens' in HC. rewrite dummy_code in HC by assumption. congruence.
  - intros [(s & Hs & HC)|(-> & _)].
    + exists s. split; [exact Hs|]. destruct (N.le_gt_cases s 30) as [L|L]; [now rewrite SAME|]. rewrite DLZ in HC by lia. discriminate HC.
    + exists 31. split; [lia|]. now apply dummy_code.
Qed.

Lemma fixed_exact : exists t, FIXED_DISTANCE_TREE = Ok t /\ dist_exact fixed_dl (Some t).
Proof.
  destruct fixed_distance_tree as (t & E & _ & TO). exists t. split; [exact E|]. split; [vm_compute; discriminate|].
  exists fixed_dl. split; [exact TO|]. split; [split; [apply Nat.leb_le; vm_compute; reflexivity|auto]|].
  intro w. unfold no_distance. split; [auto|]. intros [H|(_ & a & b & H)]; [exact H|]. exfalso.
  assert (HI : In 1 fixed_dl) by (rewrite H; apply in_or_app; right; now left). vm_compute in HI. repeat (destruct HI as [HI|HI]; [discriminate HI|]). exact HI.
Qed.

Lemma run_length_msg k sym bs s bs' : no_msg k -> 257 <= sym < 288 -> decode_run_length (rbl k) sym bs = (Err (EMsg s), bs') ->
  286 <= sym /\ s = "reserved symbol"%string /\ bs' = bs.
Proof.
  intros NK Hs E. unfold decode_run_length in E.
  replace ((257 <=? sym) && (sym <=? 287)) with true in E by (symmetry; apply andb_true_intro; split; apply N.leb_le; lia). cbn [ensure] in E. unfold bind at 1, ret at 1 in E.
  destruct (N.leb_spec sym 264); [discriminate E|]. destruct (N.leb_spec sym 284).
  - exfalso. assert (HX : (sym - 261) / 4 mod 256 < 6) by lia. unfold bind at 1 in E. unfold assert_ in E. apply N.ltb_lt in HX. rewrite HX in E. unfold ret at 1 in E.
    apply N.ltb_lt in HX. apply bind_msg in E. destruct E as [E|(v & b & E1 & E)]; [|discriminate E]. apply read_part_msg in E; [exact E|exact NK|lia].
  - destruct (N.eqb_spec sym 285); [discriminate E|]. unfold fail in E. inversion E; subst. split; [lia|auto].
Qed.
Lemma run_length_reserved k sym bs : 286 <= sym < 288 -> decode_run_length (rbl k) sym bs = (Err (EMsg "reserved symbol"), bs).
Proof.
  intros Hs. unfold decode_run_length.
  replace ((257 <=? sym) && (sym <=? 287)) with true by (symmetry; apply andb_true_intro; split; apply N.leb_le; lia). cbn [ensure]. unfold bind at 1, ret at 1.
  destruct (N.leb_spec sym 264); [lia|]. destruct (N.leb_spec sym 284); [lia|]. destruct (N.eqb_spec sym 285); [lia|]. reflexivity.
Qed.
Lemma distance_msg k sym bs s bs' : no_msg k -> sym < 32 -> decode_distance (rbl k) sym bs = (Err (EMsg s), bs') ->
  30 <= sym /\ s = "reserved distance symbol"%string /\ bs' = bs.
Proof.
  intros NK Hs E. unfold decode_distance in E. destruct (N.leb_spec sym 3); [discriminate E|]. destruct (N.leb_spec sym 29).
  - exfalso. apply bind_msg in E. destruct E as [E|(v & b & E1 & E)]; [|discriminate E]. apply read_part_msg in E; [exact E|exact NK|]. lia.
  - destruct (N.leb_spec sym 31); [|lia]. unfold fail in E. inversion E; subst. split; [lia|auto].
Qed.
Lemma distance_reserved k sym bs : 30 <= sym < 32 -> decode_distance (rbl k) sym bs = (Err (EMsg "reserved distance symbol"), bs).
Proof.
  intros Hs. unfold decode_distance. destruct (N.leb_spec sym 3); [lia|]. destruct (N.leb_spec sym 29); [lia|]. destruct (N.leb_spec sym 31); [|lia]. reflexivity.
Qed.

Section BodyMsg.
  Context (k : eofk) (ll dl : list N) (lt : code_tree) (dt : option code_tree).
  Context (HLT : tree_of ll lt) (HLL : (List.length ll <= 288)%nat) (HDX : dist_exact dl dt).

  Lemma scan_msg (NK : no_msg k) fuel : forall bs s bs', scan_loop (rbl k) fuel lt dt bs = (Err (EMsg s), bs') -> exists w, bs = w ++ bs' /\ wrong_body ll dl s w.
  Proof.
    induction fuel as [|fuel IH]; intros bs s bs' E; [discriminate E|].
    cbn [scan_loop] in E. fold (read_dist k dt) in E.
    apply bind_msg in E. destruct E as [E|(sym & bs1 & ED & E)]; [now apply decode_msg in E|].
    apply (decode_symbol_spec k ll lt) in ED; [|exact HLT]. destruct ED as (w1 & -> & HC).
    assert (HB := rfc_code_bound _ _ _ HC).
    destruct (N.eqb_spec sym 256) as [->|N256]; [discriminate E|].
    destruct (N.ltb_spec sym 256) as [L|L].
    { apply bind_msg in E. destruct E as [E|(more & bs2 & _ & E)]; [|discriminate E].
      destruct (IH _ _ _ E) as (w2 & -> & HW). exists (w1 ++ w2). split; [apply app_assoc|].
      apply (WB_next ll dl (Literal sym)); [now constructor|exact HW]. }
    apply bind_msg in E. destruct E as [E|(run & bs2 & ER & E)].
    { apply run_length_msg in E; [|exact NK|lia]. destruct E as (H1 & -> & ->). exists w1. split; [reflexivity|]. apply WB_here. now apply (WC_symbol _ _ sym). }
    apply pspec_run_length in ER. destruct ER as (w2 & -> & lextra & le & TL & ->).
    apply bind_msg in E. destruct E as [E|(dsym & bs3 & EDS & E)].
    { unfold read_dist in E. destruct dt as [t|]; [now apply decode_msg in E|]. cbn in HDX. unfold fail in E. inversion E; subst.
      exists (w1 ++ lsb (N.to_nat lextra) le). split; [now rewrite <- app_assoc|]. apply WB_here. now apply (WC_no_table _ _ run sym). }
    destruct dt as [t|]; [|cbn in EDS; discriminate EDS]. cbn in EDS. destruct HDX as (NZ & lens' & TO & HBT & HND).
    apply (decode_symbol_spec k lens' t) in EDS; [|exact TO]. destruct EDS as (w3 & -> & HDC).
    assert (HDB := rfc_code_bound _ _ _ HDC). destruct HBT as [HL' HSAME].
    apply bind_msg in E. destruct E as [E|(d & bs4 & EDD & E)].
    { apply distance_msg in E; [|exact NK|lia]. destruct E as (H1 & -> & ->).
      exists (w1 ++ lsb (N.to_nat lextra) le ++ w3). split; [now rewrite <- !app_assoc|]. apply WB_here.
      apply (WC_distance _ _ run sym); [exact TL|exact HC|]. apply HND. eauto. }
    apply pspec_distance in EDD. destruct EDD as (w4 & -> & dextra & de & TD & ->).
    assert (BS := table_row_sym _ _ _ _ TD). rewrite HSAME in HDC by exact BS.
    assert (BL := table_row_length _ _ _ _ TL). assert (BD := table_row_distance _ _ _ _ TD).
    unfold bind at 1 in E. replace ((1 <=? d) && (d <=? 32786)) with true in E by (symmetry; apply andb_true_intro; split; apply N.leb_le; lia). cbn [ensure] in E. unfold ret at 1 in E.
    unfold bind at 1 in E. unfold lift at 1 in E. rewrite Ref_new_ok in E by lia.
    apply bind_msg in E. destruct E as [E|(more & bs5 & _ & E)]; [|discriminate E].
    destruct (IH _ _ _ E) as (w5 & -> & HW).
    exists ((w1 ++ lsb (N.to_nat lextra) le ++ w3 ++ lsb (N.to_nat dextra) de) ++ w5).
    split; [rewrite <- !app_assoc; reflexivity|]. apply (WB_next ll dl (Reference (mkRef d (run - 3)))); [|exact HW].
    apply (CB_reference ll dl (mkRef d (run - 3)) sym lextra le w1 dsym dextra de w3); auto.
    unfold ref_len. cbn [r_run_minus_3]. replace (run - 3 + 3) with run by lia. exact TL.
  Qed.

  Lemma wrong_code_nonempty s w : wrong_code ll dl s w -> (1 <= List.length w)%nat.
  Proof. intros [x w0 H1 H2|len x n v w0 H1 H2 H3|len x n v w0 dw H1 H2 H3]; apply rfc_code_nonempty in H2; rewrite ?app_length; lia. Qed.

  Lemma scan_wrong s w : wrong_body ll dl s w -> forall fuel bs', (List.length w <= fuel)%nat -> scan_loop (rbl k) fuel lt dt (w ++ bs') = (Err (EMsg s), bs').
  Proof.
    assert (DEC : forall s w rest, rfc_code ll s = Some w -> decode_symbol (rbl k) lt (w ++ rest) = (Ok s, rest)).
    { intros s0 w0 rest0 HC. apply (decode_symbol_spec k ll lt); eauto. }
    induction 1 as [msg w HW|c w msg ws HCB HBB IH]; intros fuel bs' HF.
    - assert (NE := wrong_code_nonempty _ _ HW). destruct fuel as [|fuel]; [lia|]. cbn [scan_loop]. fold (read_dist k dt).
      destruct HW as [sym w H1 HC|len sym n v w TL HC HZ|len sym n v w dw TL HC HN].
      + assert (HB := rfc_code_bound _ _ _ HC). rewrite (bind_ok _ _ _ _ _ (DEC _ _ _ HC)).
        destruct (N.eqb_spec sym 256); [lia|]. destruct (N.ltb_spec sym 256); [lia|]. apply bind_err. apply run_length_reserved. lia.
      + assert (BL := table_row_length _ _ _ _ TL). rewrite <- app_assoc. rewrite (bind_ok _ _ _ _ _ (DEC _ _ _ HC)).
        destruct (N.eqb_spec sym 256); [lia|]. destruct (N.ltb_spec sym 256); [lia|].
        assert (ER : decode_run_length (rbl k) sym (lsb (N.to_nat n) v ++ bs') = (Ok len, bs')) by (apply pspec_run_length; eauto 6).
        rewrite (bind_ok _ _ _ _ _ ER). apply bind_err. destruct dt as [t|]; [|reflexivity]. destruct HDX. contradiction.
      + assert (BL := table_row_length _ _ _ _ TL). rewrite <- !app_assoc. rewrite (bind_ok _ _ _ _ _ (DEC _ _ _ HC)).
        destruct (N.eqb_spec sym 256); [lia|]. destruct (N.ltb_spec sym 256); [lia|].
        assert (ER : decode_run_length (rbl k) sym (lsb (N.to_nat n) v ++ dw ++ bs') = (Ok len, dw ++ bs')) by (apply pspec_run_length; eauto 6).
        rewrite (bind_ok _ _ _ _ _ ER). clear ER. destruct dt as [t|].
        * destruct HDX as (NZ & lens' & TO & (HL' & _) & HND). apply HND in HN. destruct HN as (ds & Hds & HDC). assert (HDB := rfc_code_bound _ _ _ HDC).
          assert (ER : decode_symbol (rbl k) t (dw ++ bs') = (Ok ds, bs')) by (apply (decode_symbol_spec k lens' t); eauto).
          cbn [read_dist]. rewrite (bind_ok _ _ _ _ _ ER). apply bind_err. apply distance_reserved. lia.
        * exfalso. cbn in HDX. clear - HDX HN. rewrite HDX in HN. destruct HN as [(ds & _ & H)|(_ & a & b & H)].
          -- unfold rfc_code in H. destruct (N.to_nat ds) as [|[|q]]; discriminate H.
          -- destruct a as [|[|a]]; discriminate H.
    - assert (NE := code_bits_nonempty _ _ _ _ HCB). rewrite app_length in HF. destruct fuel as [|fuel]; [lia|].
      specialize (IH fuel bs' ltac:(lia)). cbn [scan_loop]. fold (read_dist k dt).
      inversion HCB as [b w0 Hb HC|r lsym lextra le lw dsym dextra de dw TL HL TD HD]; subst.
      + rewrite <- app_assoc. rewrite (bind_ok _ _ _ _ _ (DEC _ _ _ HC)).
        replace (b =? 256) with false by (symmetry; apply N.eqb_neq; lia).
        replace (b <? 256) with true by (symmetry; apply N.ltb_lt; lia).
        now apply bind_err.
      + assert (BL := table_row_length _ _ _ _ TL). assert (BD := table_row_distance _ _ _ _ TD).
        rewrite <- !app_assoc. rewrite (bind_ok _ _ _ _ _ (DEC _ _ _ HL)).
        replace (lsym =? 256) with false by (symmetry; apply N.eqb_neq; lia).
        replace (lsym <? 256) with false by (symmetry; apply N.ltb_ge; lia).
        assert (ER : decode_run_length (rbl k) lsym (lsb (N.to_nat lextra) le ++ dw ++ lsb (N.to_nat dextra) de ++ ws ++ bs')
                     = (Ok (ref_len r), dw ++ lsb (N.to_nat dextra) de ++ ws ++ bs')).
        { apply pspec_run_length. eauto 6. }
        rewrite (bind_ok _ _ _ _ _ ER). clear ER.
        assert (ED : read_dist k dt (dw ++ lsb (N.to_nat dextra) de ++ ws ++ bs') = (Ok dsym, lsb (N.to_nat dextra) de ++ ws ++ bs')).
        { apply (read_dist_ok k dl dt (dist_exact_table dl dt HDX)); [lia|]. eauto. }
        rewrite (bind_ok _ _ _ _ _ ED). clear ED.
        assert (ER : decode_distance (rbl k) dsym (lsb (N.to_nat dextra) de ++ ws ++ bs') = (Ok (r_dist r), ws ++ bs')).
        { apply pspec_distance. eauto 6. }
        rewrite (bind_ok _ _ _ _ _ ER). clear ER. unfold bind at 1.
        replace (1 <=? r_dist r) with true by (symmetry; apply N.leb_le; lia).
        replace (r_dist r <=? 32786) with true by (symmetry; apply N.leb_le; lia). cbn [andb ensure]. unfold ret at 1.
        unfold bind at 1, lift at 1. rewrite Ref_new_ok by lia. now apply bind_err.
  Qed.
End BodyMsg.

Lemma header_exact lt dt w : header_trees (lt, dt) w ->
  exists ll dl, dyn_header ll dl w /\ tree_of ll lt /\ (List.length ll <= 288)%nat /\ dist_exact dl dt.
Proof.
  intros (ll & dl & HD & E1 & E2). cbn [fst snd] in *. exists ll, dl. split; [exact HD|].
  assert (HX := HD). destruct HX as [hlit hdist hclen cls items ws H1 H2 H3 HC FC CC HLL HDL HE HBb CL DO].
  split; [split; [exact E1|lia]|]. split; [lia|]. destruct dt as [t|]; [|exact E2]. destruct E2 as [NZ E2]. apply dist_tree_exact; [lia|exact NZ|exact E2].
Qed.

(** ** Blocks *)
Definition stored_wrong (off : nat) (s : string) (w : list bool) : Prop :=
  (s = "padding bits should always be empty"%string /\ wrong_padding off w)
  \/ (s = "uncompressed block length validation failed"%string /\ exists n len nlen, pads off n /\ len < 65536 /\ nlen < 65536 /\ len + nlen <> 65535
      /\ w = repeat false n ++ bits_of_bytes (le16_bytes len ++ le16_bytes nlen)).

Lemma not_all_false p : p <> repeat false (List.length p) <-> In true p.
Proof.
  induction p as [|[] p IH]; cbn [List.length repeat In]; split; intro H; try tauto.
  - discriminate.
  - right. apply IH. intro E. apply H. now rewrite <- E.
  - destruct H as [H|H]; [discriminate H|]. apply IH in H. intro E. apply H. congruence.
Qed.

Lemma align_wrong k off bs : ((off + List.length bs) mod 8 = 0)%nat ->
  (forall s bs', lb_align_loop k 9 bs = (Err (EMsg s), bs') -> s = "padding bits should always be empty"%string /\ exists w t, bs = w ++ t /\ wrong_padding off w)
  /\ (forall w t, bs = w ++ t -> wrong_padding off w -> exists bs', lb_align_loop k 9 bs = (Err (EMsg "padding bits should always be empty"), bs')).
Proof.
  intro HO. destruct (lb_align_loop_spec k 9 bs) as [I1 I2]; [lia|].
  set (n := (List.length bs mod 8)%nat) in *. set (p := firstn n bs) in *.
  assert (LP : List.length p = n) by (unfold p; rewrite firstn_length; lia).
  assert (PN : pads off n) by (split; lia).
  assert (PU : forall m, pads off m -> m = n) by (intros m [? ?]; destruct PN; lia).
  split.
  - intros s bs' E. destruct (list_eq_dec Bool.bool_dec p (repeat false (List.length p))) as [Hp|Hp]; [rewrite (I1 Hp) in E; discriminate E|].
    destruct (I2 Hp) as (b & E' & _). rewrite E' in E. injection E as <- <-. split; [reflexivity|]. exists p, (skipn n bs).
    split; [unfold p; now rewrite firstn_skipn|]. split; [rewrite LP; exact PN|now apply not_all_false].
  - intros w t EB (HP & HI). assert (LW := PU _ HP). assert (p = w). { unfold p. rewrite EB, <- LW, firstn_app, Nat.sub_diag, firstn_O, app_nil_r. apply firstn_all. }
    apply not_all_false in HI. destruct I2 as (b & E' & _); [congruence|]. eauto.
Qed.

Lemma prefixed_msg k l s bs' : no_msg k -> bytes_ok l -> lb_length_prefixed k (bits_of_bytes l) = (Err (EMsg s), bs') ->
  s = "uncompressed block length validation failed"%string /\ exists len nlen t, len < 65536 /\ nlen < 65536 /\ len + nlen <> 65535 /\ l = le16_bytes len ++ le16_bytes nlen ++ t.
Proof.
  intros NK H E. unfold lb_length_prefixed, lb_u16 in E.
  unfold bind in E. rewrite lb_read_bytes_bits in E by assumption.
  destruct l as [|b0 [|b1 l]]; try (cbn in E; destruct k as [x|]; cbn in E; [assert (x = EMsg s) by congruence; subst x; destruct (NK N s eq_refl)|discriminate E]).
  cbn [List.length Nat.leb firstn skipn nth ret] in E.
  inversion H as [|? ? B0 H1]; subst. inversion H1 as [|? ? B1 H2]; subst.
  unfold ret in E. rewrite lb_read_bytes_bits in E by assumption.
  destruct l as [|b2 [|b3 l]]; try (cbn in E; destruct k as [x|]; cbn in E; [assert (x = EMsg s) by congruence; subst x; destruct (NK N s eq_refl)|discriminate E]).
  cbn [List.length Nat.leb firstn skipn nth ret] in E.
  inversion H2 as [|? ? B2 H3]; subst. inversion H3 as [|? ? B3 H4]; subst.
  unfold is_byte in *. rewrite lxor_ffff in E by lia.
  destruct (N.eqb_spec (65535 - (b0 + 256 * b1)) (b2 + 256 * b3)) as [E1|NE].
  - cbn [ensure ret] in E. unfold ret in E. rewrite lb_read_bytes_bits in E by assumption.
    destruct (Nat.leb _ _); [discriminate E|]. destruct k as [x|]; cbn in E; [assert (x = EMsg s) by congruence; subst x; destruct (NK N s eq_refl)|discriminate E].
  - cbn [ensure] in E. unfold fail in E. inversion E; subst. split; [reflexivity|].
    exists (b0 + 256 * b1), (b2 + 256 * b3), l. split; [lia|]. split; [lia|]. split; [lia|]. unfold le16_bytes. cbn [app]. repeat f_equal; lia.
Qed.
Lemma prefixed_wrong k len nlen t : len < 65536 -> nlen < 65536 -> len + nlen <> 65535 -> bytes_ok t ->
  exists bs', lb_length_prefixed k (bits_of_bytes (le16_bytes len ++ le16_bytes nlen ++ t)) = (Err (EMsg "uncompressed block length validation failed"), bs').
Proof.
  intros H1 H2 H3 H4. unfold lb_length_prefixed, lb_u16, le16_bytes. cbn [app].
  assert (B : bytes_ok (len mod 256 :: len / 256 :: nlen mod 256 :: nlen / 256 :: t)).
  { do 4 (constructor; [unfold is_byte; lia|]). exact H4. }
  unfold bind. rewrite lb_read_bytes_bits by exact B. cbn [List.length Nat.leb firstn skipn nth]. unfold ret.
  do 2 apply Forall_inv_tail in B.
  rewrite lb_read_bytes_bits by exact B. cbn [List.length Nat.leb firstn skipn nth].
  replace (len mod 256 + 256 * (len / 256)) with len by lia.
  replace (nlen mod 256 + 256 * (nlen / 256)) with nlen by lia.
  rewrite lxor_ffff by assumption. destruct (N.eqb_spec (65535 - len) nlen); [lia|]. cbn [ensure]. unfold fail. eauto.
Qed.

Lemma stored_msg k off bs s bs' : no_msg k -> ((off + List.length bs) mod 8 = 0)%nat -> lb_stored k bs = (Err (EMsg s), bs') ->
  exists w t, bs = w ++ t /\ stored_wrong off s w.
Proof.
  intros NK HO E. unfold lb_stored in E. apply bind_msg in E. destruct (align_wrong k off bs HO) as [A1 _].
  destruct E as [E|(u & b1 & E1 & E)].
  { destruct (A1 _ _ E) as (-> & w & t & -> & HW). exists w, t. split; [reflexivity|]. left. auto. }
  clear A1. destruct (lb_align_loop_spec k 9 bs) as [I1 I2]; [lia|].
  set (n := (List.length bs mod 8)%nat) in *. set (p := firstn n bs) in *.
  assert (LP : List.length p = n) by (unfold p; rewrite firstn_length; lia). rewrite LP in *.
  destruct (list_eq_dec Bool.bool_dec p (repeat false n)) as [Hp|Hp].
  2:{ destruct (I2 Hp) as (b' & E' & _). rewrite E' in E1. discriminate E1. }
  rewrite (I1 Hp) in E1. apply ok_inj in E1. destruct E1 as [_ <-].
  assert (BL : bits_of_bytes (pack (skipn n bs)) = skipn n bs).
  { apply bits_of_pack_full. rewrite skipn_length. lia. }
  rewrite <- BL in E. apply prefixed_msg in E; [|exact NK|apply pack_bytes_ok]. destruct E as (-> & len & nlen & t & H1 & H2 & H3 & EL).
  exists (p ++ bits_of_bytes (le16_bytes len ++ le16_bytes nlen)), (bits_of_bytes t). split.
  - rewrite <- (firstn_skipn n bs) at 1. fold p. rewrite <- BL, EL, !bits_of_bytes_app, <- !app_assoc. reflexivity.
  - right. split; [reflexivity|]. exists n, len, nlen. split; [split; lia|]. rewrite Hp. auto.
Qed.

Lemma stored_complains k off w t s : ((off + List.length (w ++ t)) mod 8 = 0)%nat -> stored_wrong off s w -> exists bs', lb_stored k (w ++ t) = (Err (EMsg s), bs').
Proof.
  intros HO [(-> & HW)|(-> & n & len & nlen & HP & H1 & H2 & H3 & ->)]; unfold lb_stored.
  - destruct (align_wrong k off _ HO) as [_ A2]. destruct (A2 w t eq_refl HW) as (b & E). exists b. now apply bind_err.
  - rewrite <- app_assoc in *. rewrite app_length, repeat_length in HO. set (r := bits_of_bytes (le16_bytes len ++ le16_bytes nlen) ++ t) in *.
    destruct HP as [HP1 HP2].
    assert (NM : (List.length (repeat false n ++ r) mod 8 = n)%nat) by (rewrite app_length, repeat_length; lia).
    destruct (lb_align_loop_spec k 9 (repeat false n ++ r)) as [I1 _]; [lia|]. rewrite NM in I1.
    rewrite firstn_app, repeat_length, Nat.sub_diag, firstn_O, app_nil_r, firstn_all2, repeat_length, skipn_app, repeat_length, Nat.sub_diag in I1 by (rewrite repeat_length; lia).
    rewrite skipn_all2 in I1 by (rewrite repeat_length; lia). specialize (I1 eq_refl). cbn [app skipn] in I1.
    rewrite (bind_ok _ _ _ _ _ I1). unfold r.
    assert (LT : (List.length t mod 8 = 0)%nat). { unfold r in NM. rewrite !app_length, repeat_length, bits_of_bytes_length in NM. lia. }
    rewrite <- (bits_of_pack_full t LT), <- bits_of_bytes_app, <- app_assoc. apply prefixed_wrong; auto using pack_bytes_ok.
Qed.

Lemma codes_msg k bs s bs' : no_msg k -> lb_codes k bs = (Err (EMsg s), bs') -> exists w, bs = w ++ bs' /\ wrong_header s w.
Proof.
  intros NK E. unfold lb_codes in E. destruct (read_codes (rbl k) bs) as [[p|er| |] b] eqn:ER; try discriminate E. injection E as -> ->.
  eapply header_msg; eassumption.
Qed.

Lemma block_msg k off bs s bs' : no_msg k -> ((off + List.length bs) mod 8 = 0)%nat -> lb_read_block k bs = (Err (EMsg s), bs') ->
  exists w t, bs = w ++ t /\ wrong_block off s w.
Proof.
  intros NK HO E. unfold lb_read_block in E.
  apply bind_msg in E. destruct E as [E|(ty & b1 & E1 & E)]; [apply read_part_msg in E; [contradiction|exact NK|lia]|].
  apply pspec_read_part in E1; [|lia]. destruct E1 as (w1 & -> & HT & ->). change (2 ^ 2) with 4 in HT.
  rewrite app_length, lsb_length in HO. change (N.to_nat 2) with 2%nat in *.
  destruct (N.eqb_spec ty 0) as [->|].
  { apply bind_msg in E. destruct E as [E|(data & b2 & E2 & E)]; [|discriminate E].
    apply (stored_msg k (off + 2)) in E; [|exact NK|lia]. destruct E as (w & t & -> & [(-> & HW)|(-> & n & len & nlen & HP & H1 & H2 & H3 & ->)]).
    - exists (lsb 2 0 ++ w), t. split; [now rewrite <- app_assoc|]. now constructor.
    - exists (lsb 2 0 ++ repeat false n ++ bits_of_bytes (le16_bytes len ++ le16_bytes nlen)), t. split; [now rewrite <- !app_assoc|]. now constructor. }
  destruct (N.eqb_spec ty 1) as [->|].
  { destruct fixed_length_tree as (lt & EL & TL). destruct fixed_exact as (dt & ED & TD).
    rewrite EL, ED in E. unfold bind at 1, lift at 1 in E. unfold bind at 1, lift at 1 in E.
    apply bind_msg in E. destruct E as [E|(cs & b3 & E4 & E)]; [|discriminate E].
    unfold lb_scan in E. apply (scan_msg k fixed_ll fixed_dl) in E; [|exact TL|apply Nat.leb_le; vm_compute; reflexivity|exact TD|exact NK]. destruct E as (w & -> & HB).
    exists (lsb 2 1 ++ w), bs'. split; [now rewrite <- app_assoc|]. now constructor. }
  destruct (N.eqb_spec ty 2) as [->|].
  { apply bind_msg in E. destruct E as [E|([[lt dt] v] & b2 & E2 & E)].
    { apply codes_msg in E; [|exact NK]. destruct E as (w & -> & HW). exists (lsb 2 2 ++ w), bs'. split; [now rewrite <- app_assoc|]. now constructor. }
    apply lb_codes_ok in E2. destruct E2 as (hdr & -> & -> & HT2).
    apply bind_msg in E. destruct E as [E|(cs & b3 & E4 & E)]; [|discriminate E].
    apply header_exact in HT2. destruct HT2 as (ll & dl & HD & TL & LL & TD).
    unfold lb_scan in E. apply (scan_msg k ll dl) in E; [|assumption..]. destruct E as (w & -> & HB).
    exists (lsb 2 2 ++ hdr ++ w), bs'. split; [now rewrite <- !app_assoc|]. econstructor; eassumption. }
  destruct (N.eqb_spec ty 3) as [->|]; [|lia]. unfold fail in E. inversion E; subst. exists (lsb 2 3), bs'. split; [reflexivity|]. constructor.
Qed.

Lemma block_wrong k off s w t : wrong_block off s w -> ((off + List.length (w ++ t)) mod 8 = 0)%nat -> exists bs', lb_read_block k (w ++ t) = (Err (EMsg s), bs').
Proof.
  intros HW HO. unfold lb_read_block.
  assert (RP : forall v t, v < 4 -> read_part (rbl k) 2 (lsb 2 v ++ t) = (Ok v, t)).
  { intros v t' Hv. apply pspec_read_part; [lia|]. exists (lsb 2 v). auto. }
  assert (STORED : forall w', w = lsb 2 0 ++ w' -> stored_wrong (off + 2) s w' -> exists bs', (ty <- read_part (rbl k) 2 ;;
    (if ty =? 0 then data <- lb_stored k ;; ret (Uncompressed data) else
     if ty =? 1 then length <- lift FIXED_LENGTH_TREE ;; distance <- lift FIXED_DISTANCE_TREE ;; codes <- lb_scan k length (Some distance) ;; ret (FixedHuffman codes)
     else if ty =? 2 then r <- lb_codes k ;; let '((length, distance), trees) := r in codes <- lb_scan k length distance ;; ret (DynamicHuffman trees codes)
     else if ty =? 3 then fail "reserved block type" else panic "unreachable")) (w ++ t) = (Err (EMsg s), bs')).
  { intros w' -> HS. rewrite <- !app_assoc in *. rewrite (bind_ok _ _ _ _ _ (RP 0 _ eq_refl)). change (0 =? 0) with true. cbn iota.
    rewrite app_length, lsb_length in HO. destruct (stored_complains k (off + 2) w' t s) as (b & E); [lia|exact HS|]. exists b. now apply bind_err. }
  destruct HW as [|w HW|n len nlen HP H1 H2 H3|msg w HB|msg w HH|ll dl hdr msg w HD HB].
  - exists t. rewrite (bind_ok _ _ _ _ _ (RP 3 _ eq_refl)). reflexivity.
  - apply (STORED w); [reflexivity|]. left. auto.
  - apply (STORED (repeat false n ++ bits_of_bytes (le16_bytes len ++ le16_bytes nlen))); [reflexivity|]. right. split; [reflexivity|]. exists n, len, nlen. auto.
  - clear STORED. rewrite <- app_assoc. rewrite (bind_ok _ _ _ _ _ (RP 1 _ eq_refl)). change (1 =? 0) with false. change (1 =? 1) with true. cbn iota.
    destruct fixed_length_tree as (lt & EL & TL). destruct fixed_exact as (dt & ED & TD).
    rewrite EL, ED. unfold bind at 1, lift at 1. unfold bind at 1, lift at 1. exists t. apply bind_err. unfold lb_scan.
    apply (scan_wrong k fixed_ll fixed_dl); [exact TL|apply Nat.leb_le; vm_compute; reflexivity|exact TD|exact HB|]. rewrite app_length. lia.
  - clear STORED. rewrite <- app_assoc. rewrite (bind_ok _ _ _ _ _ (RP 2 _ eq_refl)). change (2 =? 0) with false. change (2 =? 1) with false. change (2 =? 2) with true. cbn iota.
    exists t. apply bind_err. unfold lb_codes. now rewrite (header_wrong k msg w t HH).
  - clear STORED. rewrite <- !app_assoc. rewrite (bind_ok _ _ _ _ _ (RP 2 _ eq_refl)). change (2 =? 0) with false. change (2 =? 1) with false. change (2 =? 2) with true. cbn iota.
    destruct (header_build _ _ _ HD) as ([lt dt] & HT & E1 & E2). cbn [fst snd] in *.
    erewrite bind_ok by (apply lb_codes_ok; eauto). cbn iota. exists t. apply bind_err. unfold lb_scan.
    assert (TB : tree_of ll lt /\ (List.length ll <= 288)%nat /\ dist_exact dl dt).
    { destruct HD as [hlit hdist hclen cls items ws X1 X2 X3 HC FC CC HLL HDL HE HBb CL DO].
      split; [split; [assumption|lia]|]. split; [lia|]. destruct dt as [t'|]; [|exact E2]. destruct E2 as [NZ EDT]. apply dist_tree_exact; [lia|exact NZ|exact EDT]. }
    destruct TB as (TL & LL & TD). apply (scan_wrong k ll dl); auto. rewrite app_length. lia.
Qed.

(** ** Streams *)
Lemma no_msg_io e : no_msg (EofErr (EIo e)).
Proof. intros A s E. discriminate E. Qed.

Lemma align_at e off bs r : Rbr e bs r -> ((off + List.length bs) mod 8 = 0)%nat ->
  (forall s r', br_align r = (Err (EMsg s), r') -> s = "padding bits should always be empty"%string /\ exists w t, bs = w ++ t /\ wrong_padding off w)
  /\ (forall w t, bs = w ++ t -> wrong_padding off w -> fst (br_align r) = Err (EMsg "padding bits should always be empty")).
Proof.
  intros HR HO. destruct (align_wrong (EofErr (EIo e)) off bs HO) as [A1 A2].
  destruct (sim_br_align_loop e 9 bs r HR) as (r' & E & R').
  assert (EA : br_align r = br_align_loop 9 r). { unfold br_align, bind at 1. now rewrite (Rbr_untracked _ _ _ HR). }
  rewrite EA, E. destruct (lb_align_loop (EofErr (EIo e)) 9 bs) as [o b] eqn:EL. cbn [fst snd] in *. split.
  - intros s r2 H. injection H as -> ->. eapply A1. reflexivity.
  - intros w t EB HW. destruct (A2 w t EB HW) as (b' & H). now injection H as -> ->.
Qed.

Lemma drain_msg e fuel : forall off bs it s it', at_bits e bs it -> ((off + List.length bs) mod 8 = 0)%nat -> bi_end it = false ->
  bi_drain fuel it = (Err (EMsg s), it') -> exists blocks w t, bs = w ++ t /\ wrong_stream off blocks s w.
Proof.
  induction fuel as [|fuel IH]; intros off bs it s it' HA HO HE E; [discriminate E|].
  destruct it as [r en]. cbn [bi_end] in HE. subst en. unfold at_bits in HA. cbn [bi_inner] in HA.
  cbn [bi_drain] in E. unfold bind at 1, bi_next at 1 in E. cbn [bi_end bi_inner] in E.
  destruct (sim_br_read_bit e _ _ HA) as (r1 & E1 & R1). rewrite E1 in E.
  destruct bs as [|fin bs]; cbn [rbl fst snd eof_out] in *; [discriminate E|].
  cbn [List.length] in *.
  destruct (sim_read_block e _ _ R1) as (r2 & E2 & R2). rewrite E2 in E.
  destruct (lb_read_block (EofErr (EIo e)) bs) as [o b2] eqn:EB. cbn [fst snd] in *.
  destruct o as [b|er| |]; try discriminate E.
  2:{ injection E as -> _. apply (block_msg _ (off + 1)) in EB; [|apply no_msg_io|lia]. destruct EB as (w & t & -> & HW). exists [], (fin :: w), t. split; [reflexivity|]. now constructor. }
  apply (block_sound _ (off + 1)) in EB; [|lia]. destruct EB as (w & -> & HB & WF). rewrite app_length in *.
  destruct fin.
  - apply bind_msg in E. destruct E as [E|(more & i2 & _ & E)]; [|discriminate E].
    destruct fuel as [|fuel]; [discriminate E|]. cbn [bi_drain] in E.
    unfold bind at 1, bi_next at 1 in E. cbn [bi_end bi_inner] in E.
    destruct (align_at e (off + 1 + List.length w) b2 r2 R2 ltac:(lia)) as [A1 _].
    destruct (br_align r2) as [o r3] eqn:EA. destruct o as [u|er| |]; try discriminate E. injection E as -> _.
    destruct (A1 _ _ eq_refl) as (-> & p & t & -> & HW). exists [b], (true :: w ++ p), t. split; [cbn [app]; now rewrite <- app_assoc|]. now constructor.
  - apply bind_msg in E. destruct E as [E|(more & i2 & _ & E)]; [|discriminate E].
    apply (IH (off + 1 + List.length w)%nat b2) in E; [|exact R2|lia|reflexivity].
    destruct E as (bl & ws & t & -> & HS). exists (b :: bl), (false :: w ++ ws), t. split; [cbn [app]; now rewrite <- app_assoc|]. now constructor.
Qed.

Lemma next_wrong e off blocks s w : wrong_stream off blocks s w -> forall t it,
  at_bits e (w ++ t) it -> bi_end it = false -> ((off + List.length (w ++ t)) mod 8 = 0)%nat ->
  fst (call_next (List.length blocks + 1) it) = map (fun b => Ok (Some b)) blocks ++ [Err (EMsg s)]
  /\ forall fuel, (List.length blocks < fuel)%nat -> fst (bi_drain fuel it) = Err (EMsg s).
Proof.
  induction 1 as [off fin msg w HW|off b bs msg w ws HB HS IH|off b w p HB HP]; intros t it HA HE HO;
    destruct it as [r en]; cbn [bi_end bi_inner] in *; subst en; unfold at_bits in *; cbn [bi_inner] in HA;
    cbn [app] in HA; destruct (sim_br_read_bit e _ _ HA) as (r1 & E1 & R1); cbn [rbl fst snd] in E1, R1;
    cbn [app] in HO; rewrite <- ?app_assoc in R1, HO; cbn [List.length] in HO;
    destruct (sim_read_block e _ _ R1) as (r2 & E2 & R2).
  - destruct (block_wrong (EofErr (EIo e)) (off + 1) msg w t HW ltac:(lia)) as (b2 & EB). rewrite EB in E2, R2. cbn [fst snd] in *.
    cbn [List.length Nat.add call_next map app]. unfold bi_next at 1. cbn [bi_end bi_inner]. rewrite E1, E2. split; [reflexivity|].
    intros [|fuel] HF; [lia|]. cbn [bi_drain]. unfold bind at 1, bi_next at 1. cbn [bi_end bi_inner]. rewrite E1, E2. reflexivity.
  - rewrite (block_complete _ (off + 1) b w) in E2, R2; [|assumption|lia|assumption|lia]. cbn [fst snd] in *.
    destruct (IH t (mkBlockIter r2 false)) as [I1 I2]; [exact R2|reflexivity|rewrite !app_length in *; lia|].
    cbn [List.length Nat.add call_next map app]. unfold bi_next at 1. cbn [bi_end bi_inner]. rewrite E1, E2. split.
    + destruct (call_next (List.length bs + 1) (mkBlockIter r2 false)) as [os it2]. cbn [fst] in *. now rewrite I1.
    + intros [|fuel] HF; [lia|]. cbn [bi_drain]. unfold bind at 1, bi_next at 1. cbn [bi_end bi_inner]. rewrite E1, E2.
      specialize (I2 fuel ltac:(lia)). unfold bind. destruct (bi_drain fuel (mkBlockIter r2 false)) as [o i2]. cbn [fst] in I2. subst o. reflexivity.
  - rewrite (block_complete _ (off + 1) b w) in E2, R2; [|assumption|lia|assumption|lia]. cbn [fst snd] in *.
    rewrite !app_length in HO.
    destruct (align_at e (off + 1 + List.length w) _ _ R2) as [_ A2]; [rewrite !app_length; lia|]. specialize (A2 p t eq_refl HP).
    cbn [List.length Nat.add call_next map app]. unfold bi_next at 1. cbn [bi_end bi_inner]. rewrite E1, E2. unfold bi_next at 1. cbn [bi_end bi_inner].
    split.
    + destruct (br_align r2) as [o r3]. cbn [fst] in A2. subst o. reflexivity.
    + intros [|[|fuel]] HF; [lia|lia|]. cbn [bi_drain]. unfold bind at 1, bi_next at 1. cbn [bi_end bi_inner]. rewrite E1, E2.
      unfold bind at 1. unfold bind at 1, bi_next at 1. cbn [bi_end bi_inner].
      destruct (br_align r2) as [o r3]. cbn [fst] in A2. subst o. reflexivity.
Qed.

Lemma wrong_stream_length off blocks s w : wrong_stream off blocks s w -> (List.length blocks <= List.length w)%nat.
Proof. induction 1; cbn [List.length]; rewrite ?app_length; lia. Qed.
