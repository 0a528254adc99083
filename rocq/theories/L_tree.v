(** Lemmas: the code tree is the canonical code of RFC 1951. *)
From Verif Require Import Base M_bit M_lib M_code_tree M_huffman Spec L_bits L_reader L_stored.
From Coq Require Import ZArith ZifyBool ZifyNat ZifyN.
Ltac Zify.zify_post_hook ::= Z.div_mod_to_equations.
Local Open Scope N_scope.
Local Open Scope model_scope.

(** Root-to-leaf paths, left to right. *)
Fixpoint paths (n : node) : list (list bool * N) :=
  match n with
  | Leaf s => [([], s)]
  | Internal a b => map (fun p => (false :: fst p, snd p)) (paths a)
                    ++ map (fun p => (true :: fst p, snd p)) (paths b)
  end.

(** Codes of a list of nodes at depth [d], the first having value [v]. *)
Fixpoint entries (d : nat) (v : N) (ns : list node) : list (list bool * N) :=
  match ns with
  | [] => []
  | n :: ns' => map (fun p => (msb d v ++ fst p, snd p)) (paths n) ++ entries d (v + 1) ns'
  end.

Lemma msb_S d v b : msb d v ++ [b] = msb (S d) (2 * v + (if b then 1 else 0)).
Proof.
  unfold msb. rewrite lsb_S. cbn [rev]. f_equal; [|f_equal].
  - do 2 f_equal. destruct b; lia.
  - destruct b; [rewrite N.testbit_odd_0|rewrite N.add_0_r, N.testbit_even_0]; reflexivity.
Qed.

Lemma entries_app d : forall a v b,
  entries d v (a ++ b) = entries d v a ++ entries d (v + N.of_nat (List.length a)) b.
Proof.
  induction a as [|n a IH]; intros v b; cbn [entries app List.length].
  - now rewrite N.add_0_r.
  - rewrite IH, <- app_assoc. do 3 f_equal. lia.
Qed.

Lemma even_pairs (P : list node -> Prop) :
  P [] -> (forall a b l, Nat.even (List.length l) = true -> P l -> P (a :: b :: l)) ->
  forall l, Nat.even (List.length l) = true -> P l.
Proof.
  intros H0 H2. fix go 1. intros [|a [|b l]] E.
  - exact H0.
  - discriminate.
  - apply H2; [exact E|apply go; exact E].
Qed.

Lemma entries_pair_up d : forall ns, Nat.even (List.length ns) = true -> forall v,
  entries d v (pair_up ns) = entries (S d) (2 * v) ns.
Proof.
  apply (even_pairs (fun ns => forall v, entries d v (pair_up ns) = entries (S d) (2 * v) ns)).
  - reflexivity.
  - intros a b l _ IH v. cbn [pair_up entries paths].
    rewrite IH, map_app, !map_map, <- app_assoc. f_equal; [|f_equal].
    + apply map_ext. intros [w s]. cbn [fst snd].
      change (false :: w) with ([false] ++ w). rewrite app_assoc, msb_S. do 3 f_equal. lia.
    + apply map_ext. intros [w s]. cbn [fst snd].
      change (true :: w) with ([true] ++ w). rewrite app_assoc, msb_S. reflexivity.
    + f_equal. lia.
Qed.

Lemma pair_up_length : forall ns, Nat.even (List.length ns) = true ->
  (2 * List.length (pair_up ns) = List.length ns)%nat.
Proof.
  apply (even_pairs (fun ns => (2 * List.length (pair_up ns) = List.length ns)%nat)).
  - reflexivity.
  - intros a b l _ IH. cbn [pair_up List.length]. lia.
Qed.

(** ** Leaves of one level *)
Fixpoint syms_at (i pos : N) (lens : list N) : list N :=
  match lens with
  | [] => []
  | v :: lens' => if i =? v then pos :: syms_at i (pos + 1) lens' else syms_at i (pos + 1) lens'
  end.

Lemma leaves_at_ok i : forall lens pos, pos + N.of_nat (List.length lens) <= 65536 ->
  leaves_at i pos lens = Ok (map Leaf (syms_at i pos lens)).
Proof.
  induction lens as [|v lens IH]; intros pos H; cbn [leaves_at syms_at List.length] in *; [reflexivity|].
  destruct (i =? v); rewrite ?IH by lia.
  - replace (pos <=? 65535) with true by (symmetry; apply N.leb_le; lia). reflexivity.
  - reflexivity.
Qed.

Lemma syms_at_length i : forall lens pos, N.of_nat (List.length (syms_at i pos lens)) = bl_count lens i.
Proof.
  unfold bl_count.
  induction lens as [|v lens IH]; intro pos; cbn [syms_at filter]; [reflexivity|].
  destruct (i =? v); cbn [List.length]; rewrite ?Nat2N.inj_succ; rewrite IH; reflexivity.
Qed.

Lemma bl_count_cons v lens i : bl_count (v :: lens) i = (if i =? v then 1 else 0) + bl_count lens i.
Proof.
  unfold bl_count. cbn [filter]. destruct (i =? v); cbn [List.length]; lia.
Qed.

Lemma syms_at_nth i : forall lens pos j s,
  nth_error (syms_at i pos lens) j = Some s <->
  pos <= s /\ nth_error lens (N.to_nat (s - pos)) = Some i
  /\ bl_count (firstn (N.to_nat (s - pos)) lens) i = N.of_nat j.
Proof.
  induction lens as [|v lens IH]; intros pos j s; cbn [syms_at].
  - split.
    + destruct j; discriminate.
    + intros (_ & H & _). destruct (N.to_nat (s - pos)); discriminate.
  - destruct (N.eqb_spec i v) as [->|Hne].
    + destruct j as [|j]; cbn [nth_error].
      * split.
        -- intro H. inversion H; subst. rewrite N.sub_diag. cbn. repeat split; lia.
        -- intros (H1 & H2 & H3). destruct (N.to_nat (s - pos)) eqn:E; [f_equal; lia|].
           cbn [firstn] in H3. rewrite bl_count_cons, N.eqb_refl in H3. lia.
      * rewrite IH. split.
        -- intros (H1 & H2 & H3). replace (N.to_nat (s - pos)) with (S (N.to_nat (s - (pos + 1)))) by lia.
           cbn [nth_error firstn]. rewrite bl_count_cons, N.eqb_refl. repeat split; auto; lia.
        -- intros (H1 & H2 & H3). destruct (N.to_nat (s - pos)) eqn:E.
           ++ cbn in H3. lia.
           ++ cbn [nth_error firstn] in *. rewrite bl_count_cons, N.eqb_refl in H3.
              replace (N.to_nat (s - (pos + 1))) with n by lia. repeat split; auto; lia.
    + rewrite IH. split.
      * intros (H1 & H2 & H3). replace (N.to_nat (s - pos)) with (S (N.to_nat (s - (pos + 1)))) by lia.
        cbn [nth_error firstn]. rewrite bl_count_cons. destruct (N.eqb_spec i v); [congruence|].
        repeat split; auto; lia.
      * intros (H1 & H2 & H3). destruct (N.to_nat (s - pos)) eqn:E.
        -- cbn in H2. congruence.
        -- cbn [nth_error firstn] in *. rewrite bl_count_cons in H3.
           destruct (N.eqb_spec i v); [congruence|].
           replace (N.to_nat (s - (pos + 1))) with n by lia. repeat split; auto; lia.
Qed.

Lemma syms_at_ge i : forall lens pos s, In s (syms_at i pos lens) -> pos <= s.
Proof.
  intros lens pos s H. apply In_nth_error in H. destruct H as (j & H).
  apply syms_at_nth in H. tauto.
Qed.

Lemma syms_at_NoDup i : forall lens pos, NoDup (syms_at i pos lens).
Proof.
  induction lens as [|v lens IH]; intro pos; cbn [syms_at]; [constructor|].
  destruct (i =? v); [|apply IH]. constructor; [|apply IH].
  intro H. apply syms_at_ge in H. lia.
Qed.

Lemma entries_leaves d : forall syms v,
  entries d v (map Leaf syms)
  = map (fun p => (msb d (v + N.of_nat (fst p)), snd p)) (combine (seq 0 (List.length syms)) syms).
Proof.
  induction syms as [|s syms IH]; intro v; [reflexivity|].
  cbn [map entries paths List.length seq combine fst snd app].
  rewrite app_nil_r, N.add_0_r. f_equal. rewrite IH.
  rewrite <- seq_shift. clear IH. 
  generalize (List.length syms). intro n. generalize 0%nat as st.
  revert syms. induction n; intros syms st; [reflexivity|].
  destruct syms as [|y syms]; [reflexivity|]. cbn [seq map combine fst snd]. f_equal.
  - do 2 f_equal. lia.
  - apply IHn.
Qed.

(** ** Levels *)
Fixpoint down (k : nat) : list N :=
  match k with O => [0] | S k' => N.of_nat k :: down k' end.

Lemma fifteen_down : fifteen_to_zero = down 15.
Proof. reflexivity. Qed.

(** All codes of lengths 1..[k]. *)
Fixpoint code_entries (lens : list N) (k : nat) : list (list bool * N) :=
  match k with
  | O => []
  | S k' => code_entries lens k' ++ entries k (next_code lens k) (map Leaf (syms_at (N.of_nat k) 0 lens))
  end.

Definition weights (lens : list N) := 
  fix go (k : nat) : N :=
  match k with O => 0 | S k' => go k' + bl_count lens (N.of_nat k) * 2 ^ (16 - N.of_nat k) end.

Lemma tree_levels_spec lens : N.of_nat (List.length lens) <= 65536 -> forall k nodes, (k <= 15)%nat ->
  match tree_levels lens (down k) nodes with
  | Ok out =>
      entries 0 0 out = code_entries lens k ++ entries (S k) (next_code lens (S k)) nodes
      /\ N.of_nat (List.length out) * 2 ^ 16
         = N.of_nat (List.length nodes) * 2 ^ (15 - N.of_nat k) + weights lens k
      /\ Forall (fun n => exists a b, n = Internal a b) out
  | Err _ => N.of_nat (List.length nodes) * 2 ^ (15 - N.of_nat k) + weights lens k <> 2 ^ 16
  | _ => False
  end.
Proof.
  intro HL. induction k as [|k IH]; intros nodes Hk.
  - cbn [down tree_levels weights code_entries app]. unfold tree_level.
    destruct (Nat.even (List.length nodes)) eqn:E; cbn [obind].
    + change (0 <? 0) with false. cbn [obind app]. split; [|split].
      * rewrite entries_pair_up by assumption. reflexivity.
      * assert (P := pair_up_length _ E). change (2 ^ 16) with (2 * 2 ^ 15).
        change (15 - N.of_nat 0) with 15. rewrite <- P. lia.
      * clear. revert nodes. fix go 1. intros [|a [|b l]]; cbn [pair_up]; try constructor; eauto.
    + change (15 - N.of_nat 0) with 15. change (2 ^ 16) with (2 * 2 ^ 15). intro H.
      assert (List.length nodes = 2%nat) as E2 by lia. rewrite E2 in E. discriminate.
  - cbn [down tree_levels]. unfold tree_level.
    assert (W : weights lens (S k) = weights lens k + bl_count lens (N.of_nat (S k)) * 2 ^ (16 - N.of_nat (S k))) by reflexivity.
    assert (P1 : 2 ^ (15 - N.of_nat k) = 2 * 2 ^ (15 - N.of_nat (S k))).
    { rewrite <- N.pow_succ_r'. f_equal. lia. }
    assert (P2 : 2 ^ (16 - N.of_nat (S k)) = 2 ^ (15 - N.of_nat k)) by (f_equal; lia).
    destruct (Nat.even (List.length nodes)) eqn:E; cbn [obind].
    + replace (0 <? N.of_nat (S k)) with true by (symmetry; apply N.ltb_lt; lia).
      rewrite leaves_at_ok by lia. cbn [obind].
      set (syms := syms_at (N.of_nat (S k)) 0 lens).
      assert (LS : N.of_nat (List.length syms) = bl_count lens (N.of_nat (S k))) by apply syms_at_length.
      assert (P := pair_up_length _ E).
      assert (LEQ : N.of_nat (List.length (map Leaf syms ++ pair_up nodes)) * 2 ^ (15 - N.of_nat k) + weights lens k
                    = N.of_nat (List.length nodes) * 2 ^ (15 - N.of_nat (S k)) + weights lens (S k)).
      { rewrite W, P2, app_length, map_length, Nat2N.inj_add, LS, P1. rewrite <- P. nia. }
      specialize (IH (map Leaf syms ++ pair_up nodes) ltac:(lia)). rewrite LEQ in IH.
      destruct (tree_levels lens (down k) (map Leaf syms ++ pair_up nodes)); auto.
      destruct IH as (I1 & I2 & I3). split; [|split]; auto.
      rewrite I1, entries_app, map_length, LS, entries_pair_up by assumption.
      cbn [code_entries]. rewrite <- app_assoc. do 2 f_equal.
    + (* odd: the total is not a multiple of 2^(15-k) *)
      intro H. rewrite W, P2, P1 in H.
      assert (D : forall j, (j <= k)%nat -> exists q, weights lens j = q * 2 ^ (15 - N.of_nat k)).
      { induction j; intro Hj; [exists 0; reflexivity|].
        destruct (IHj ltac:(lia)) as (q & Hq). cbn [weights]. fold (weights lens).
        rewrite Hq. exists (q + bl_count lens (N.of_nat (S j)) * 2 ^ (N.of_nat k - N.of_nat j)).
        rewrite N.mul_add_distr_r, <- N.mul_assoc, <- N.pow_add_r. do 3 f_equal. lia. }
      destruct (D k ltac:(lia)) as (q & Hq). rewrite Hq, P1 in H.
      assert (P16 : 2 ^ 16 = 2 ^ (N.of_nat k + 1) * (2 * 2 ^ (15 - N.of_nat (S k)))).
      { rewrite <- P1, <- N.pow_add_r. f_equal. lia. }
      rewrite P16 in H.
      set (X := 2 ^ (15 - N.of_nat (S k))) in *.
      assert (X <> 0) by (apply N.pow_nonzero; lia).
      set (Y := 2 ^ (N.of_nat k + 1)) in *.
      set (c := bl_count lens (N.of_nat (S k))) in *.
      assert (HH : (N.of_nat (List.length nodes) + 2 * (q + c)) * X = (2 * Y) * X) by lia.
      apply N.mul_cancel_r in HH; [|assumption].
      assert (Nat.even (List.length nodes) = true); [|congruence].
      apply Nat.even_spec. exists (N.to_nat (Y - (q + c))). lia.
Qed.

Lemma weights_cons x lens k : (k <= 15)%nat ->
  weights (x :: lens) k = (if (1 <=? x) && (x <=? N.of_nat k) then 2 ^ (16 - x) else 0) + weights lens k.
Proof.
  induction k; intro Hk.
  - cbn [weights]. replace (_ && _) with false; [reflexivity|].
    symmetry. destruct (N.leb_spec 1 x); [|reflexivity]. apply N.leb_gt. lia.
  - cbn [weights]. fold (weights (x :: lens)) (weights lens). rewrite IHk by lia.
    rewrite bl_count_cons.
    destruct (N.eqb_spec (N.of_nat (S k)) x) as [E|E].
    + rewrite E. rewrite N.leb_refl. replace (1 <=? x) with true by (symmetry; apply N.leb_le; lia).
      replace (x <=? N.of_nat k) with false by (symmetry; apply N.leb_gt; lia). cbn [andb]. lia.
    + replace (x <=? N.of_nat (S k)) with (x <=? N.of_nat k); [lia|].
      destruct (N.leb_spec x (N.of_nat k)); destruct (N.leb_spec x (N.of_nat (S k))); auto; lia.
Qed.

Lemma weights_kraft lens : weights lens 15 = 2 * kraft lens.
Proof.
  induction lens as [|x lens IH]; [reflexivity|].
  rewrite weights_cons by lia. rewrite IH. unfold kraft. cbn [map fold_right].
  change (N.of_nat 15) with 15. destruct ((1 <=? x) && (x <=? 15)) eqn:E; [|lia].
  apply andb_true_iff in E. destruct E as [E1 E2]. apply N.leb_le in E1, E2.
  replace (16 - x) with (N.succ (15 - x)) by lia. rewrite N.pow_succ_r'. lia.
Qed.

(** [tree_new] accepts exactly complete codes and otherwise reports an error. *)
Lemma tree_new_spec lens : N.of_nat (List.length lens) <= 65536 ->
  match tree_new lens with
  | Ok t => complete lens
            /\ paths (Internal (ct_left t) (ct_right t)) = code_entries lens 15
  | Err _ => ~ complete lens
  | _ => False
  end.
Proof.
  intro HL. unfold tree_new, complete.
  destruct (Nat.leb_spec 2 (List.length lens)) as [H2|H2]; [|lia].
  replace (_ <=? 4294967295) with true by (symmetry; apply N.leb_le; lia).
  rewrite fifteen_down.
  assert (T := tree_levels_spec lens HL 15 [] ltac:(lia)).
  change (15 - N.of_nat 15) with 0 in T. cbn [List.length] in T.
  rewrite weights_kraft in T.
  destruct (tree_levels lens (down 15) []) as [out| | |]; cbn [obind]; auto.
  - destruct T as (T1 & T2 & T3).
    destruct out as [|n [|n2 out]].
    + cbn [List.length Nat.eqb] in *. change (2 ^ 15) with 32768. lia.
    + cbn [List.length Nat.eqb] in *. inversion T3; subst. destruct H1 as (a & b & ->).
      cbn [ct_left ct_right]. split; [split; [assumption|change (2 ^ 16) with (2 * 2 ^ 15) in T2; lia]|].
      cbn [entries] in T1. rewrite !app_nil_r in T1. rewrite <- T1.
      change (msb 0 0) with (@nil bool). cbn [app].
      rewrite <- (map_id (paths (Internal a b))) at 1. apply map_ext. now intros [].
    + cbn [List.length Nat.eqb]. intros [_ K]. cbn [List.length] in T2.
      rewrite K in T2. change (2 * 2 ^ 15) with (2 ^ 16) in T2. lia.
  - intros [_ K]. apply T. rewrite K. reflexivity.
Qed.

Lemma code_entries_in lens k w s : (k <= 15)%nat ->
  In (w, s) (code_entries lens k) <->
  exists l, 1 <= l <= N.of_nat k /\ nth_error lens (N.to_nat s) = Some l
            /\ w = msb (N.to_nat l) (next_code lens (N.to_nat l) + bl_count (firstn (N.to_nat s) lens) l).
Proof.
  induction k; intro Hk.
  - cbn [code_entries]. split; [intros []|]. intros (l & H & _). lia.
  - cbn [code_entries]. rewrite in_app_iff, IHk by lia. clear IHk.
    rewrite entries_leaves, in_map_iff. split.
    + intros [(l & H1 & H2 & H3)|((j & s') & E & H)].
      * exists l. repeat split; auto; lia.
      * cbn [fst snd] in E. injection E as E1 E2. subst s'.
        apply In_nth_error in H. destruct H as (j' & H).
        assert (C : nth_error (syms_at (N.of_nat (S k)) 0 lens) j' = Some s /\ j = j').
        { revert H. generalize (syms_at (N.of_nat (S k)) 0 lens) as l. intro l.
          assert (G : forall l st j', nth_error (combine (seq st (List.length l)) l) j' = Some (j, s) ->
                         nth_error l j' = Some s /\ j = (st + j')%nat).
          { clear. induction l as [|x l IH]; intros st j' H; [destruct j'; discriminate|].
            destruct j'; cbn in *.
            - inversion H; subst. split; [reflexivity|lia].
            - apply IH in H. destruct H. split; [assumption|lia]. }
          intro H. apply G in H. destruct H. split; auto. }
        destruct C as [C ->]. apply syms_at_nth in C. destruct C as (_ & C1 & C2).
        rewrite N.sub_0_r in *. exists (N.of_nat (S k)). repeat split; auto; try lia.
        rewrite Nat2N.id, C2. now rewrite <- E1.
    + intros (l & H1 & H2 & H3).
      destruct (N.eq_dec l (N.of_nat (S k))) as [->|].
      * right. set (j := N.to_nat (bl_count (firstn (N.to_nat s) lens) (N.of_nat (S k)))).
        exists (j, s). cbn [fst snd]. rewrite H3, Nat2N.id. split.
        { do 3 f_equal. unfold j. lia. }
        assert (C : nth_error (syms_at (N.of_nat (S k)) 0 lens) j = Some s).
        { apply syms_at_nth. rewrite N.sub_0_r. repeat split; auto; [lia|]. unfold j. lia. }
        clear - C. revert C. generalize (syms_at (N.of_nat (S k)) 0 lens) as l.
        assert (G : forall l st j, nth_error l j = Some s -> In ((st + j)%nat, s) (combine (seq st (List.length l)) l)).
        { clear. induction l as [|x l IH]; intros st j H; [destruct j; discriminate|].
          destruct j; cbn in *.
          - left. inversion H; subst. f_equal. lia.
          - right. replace (st + S j)%nat with (S st + j)%nat by lia. now apply IH. }
        intros l C. apply (G l 0%nat j C).
      * left. exists l. repeat split; auto; lia.
Qed.

Lemma rfc_code_entries lens w s : In (w, s) (code_entries lens 15) <-> rfc_code lens s = Some w.
Proof.
  rewrite code_entries_in by lia. unfold rfc_code. change (N.of_nat 15) with 15. split.
  - intros (l & H1 & -> & ->).
    replace (1 <=? l) with true by (symmetry; apply N.leb_le; lia).
    replace (l <=? 15) with true by (symmetry; apply N.leb_le; lia). reflexivity.
  - destruct (nth_error lens (N.to_nat s)) as [l|]; [|discriminate].
    destruct (N.leb_spec 1 l); [|discriminate]. destruct (N.leb_spec l 15); [|discriminate].
    cbn [andb]. intro E. inversion E. eauto.
Qed.

Lemma code_entries_syms lens k s : (k <= 15)%nat -> In s (map snd (code_entries lens k)) ->
  exists l, 1 <= l <= N.of_nat k /\ nth_error lens (N.to_nat s) = Some l.
Proof.
  intros Hk H. apply in_map_iff in H. destruct H as ((w & s') & E & H). cbn in E. subst s'.
  apply code_entries_in in H; [|assumption]. destruct H as (l & H1 & H2 & _). eauto.
Qed.

Lemma snd_entries_leaves d v syms : map snd (entries d v (map Leaf syms)) = syms.
Proof.
  revert v. induction syms; intro v; [reflexivity|]. cbn [map entries paths app snd]. f_equal. apply IHsyms.
Qed.

Lemma NoDup_app {A} (a b : list A) : NoDup a -> NoDup b -> (forall x, In x a -> ~ In x b) -> NoDup (a ++ b).
Proof.
  induction a as [|x a IH]; intros Ha Hb H; [exact Hb|].
  inversion Ha; subst. cbn. constructor.
  - rewrite in_app_iff. intros [|]; [tauto|]. eapply H; [left; reflexivity|eassumption].
  - apply IH; auto. intros y Hy. apply H. now right.
Qed.

Lemma code_entries_NoDup lens k : (k <= 15)%nat -> NoDup (map snd (code_entries lens k)).
Proof.
  induction k; intro Hk; [constructor|].
  cbn [code_entries]. rewrite map_app, snd_entries_leaves. apply NoDup_app.
  - apply IHk. lia.
  - apply syms_at_NoDup.
  - intros s H1 H2. apply code_entries_syms in H1; [|lia]. destruct H1 as (l & H & E).
    apply In_nth_error in H2. destruct H2 as (j & H2). apply syms_at_nth in H2.
    rewrite N.sub_0_r in H2. destruct H2 as (_ & H2 & _). rewrite H2 in E. inversion E. lia.
Qed.

(** ** Decoding *)
Lemma decode_node_path k n : forall w s tail, In (w, s) (paths n) ->
  decode_node (rbl k) n (w ++ tail) = (Ok s, tail).
Proof.
  induction n as [x|a IHa b IHb]; intros w s tail H; cbn [paths] in H.
  - destruct H as [H|[]]. inversion H; subst. reflexivity.
  - apply in_app_iff in H. rewrite !in_map_iff in H. cbn [decode_node]. unfold bind.
    destruct H as [((w' & s') & E & H)|((w' & s') & E & H)]; cbn [fst snd] in E; inversion E; subst;
      cbn [app rbl]; [apply IHa|apply IHb]; assumption.
Qed.

Lemma decode_node_inv k n : forall bs s bs', decode_node (rbl k) n bs = (Ok s, bs') ->
  exists w, bs = w ++ bs' /\ In (w, s) (paths n).
Proof.
  induction n as [x|a IHa b IHb]; intros bs s bs' H; cbn [decode_node] in H.
  - unfold ret in H. inversion H; subst. exists []. split; [reflexivity|]. now left.
  - unfold bind in H. destruct bs as [|c bs]; [destruct k; discriminate|]. cbn [rbl] in H.
    destruct c.
    + destruct (IHb _ _ _ H) as (w & -> & HI). exists (true :: w). split; [reflexivity|].
      cbn [paths]. apply in_app_iff. right. apply in_map_iff. exists (w, s). auto.
    + destruct (IHa _ _ _ H) as (w & -> & HI). exists (false :: w). split; [reflexivity|].
      cbn [paths]. apply in_app_iff. left. apply in_map_iff. exists (w, s). auto.
Qed.

Lemma decode_node_total k n : forall bs,
  (exists s bs', decode_node (rbl k) n bs = (Ok s, bs')) \/ decode_node (rbl k) n bs = (eof_out k, []).
Proof.
  induction n as [x|a IHa b IHb]; intro bs; cbn [decode_node].
  - left. eexists. eexists. reflexivity.
  - unfold bind. destruct bs as [|[] bs]; cbn [rbl].
    + right. destruct k; reflexivity.
    + apply IHb.
    + apply IHa.
Qed.

Definition tree_of (lens : list N) (t : code_tree) : Prop :=
  tree_new lens = Ok t /\ N.of_nat (List.length lens) <= 65536.

Lemma decode_symbol_spec k lens t bs s bs' : tree_of lens t ->
  decode_symbol (rbl k) t bs = (Ok s, bs') <-> exists w, bs = w ++ bs' /\ rfc_code lens s = Some w.
Proof.
  intros [HT HL]. assert (T := tree_new_spec lens HL). rewrite HT in T. destruct T as [_ HP].
  unfold decode_symbol. split.
  - intro H. apply decode_node_inv in H. destruct H as (w & -> & H). exists w. split; [reflexivity|].
    apply rfc_code_entries. now rewrite <- HP.
  - intros (w & -> & H). apply decode_node_path. rewrite HP. now apply rfc_code_entries.
Qed.

Lemma decode_symbol_total k t bs :
  (exists s bs', decode_symbol (rbl k) t bs = (Ok s, bs')) \/ decode_symbol (rbl k) t bs = (eof_out k, []).
Proof. apply decode_node_total. Qed.

Lemma rfc_code_bound lens s w : rfc_code lens s = Some w -> s < N.of_nat (List.length lens).
Proof.
  unfold rfc_code. destruct (nth_error lens (N.to_nat s)) eqn:E; [|discriminate]. intros _.
  assert (N.to_nat s < List.length lens)%nat by (apply nth_error_Some; congruence). lia.
Qed.

Lemma rfc_code_nonempty lens s w : rfc_code lens s = Some w -> (1 <= List.length w)%nat.
Proof.
  unfold rfc_code. destruct (nth_error lens (N.to_nat s)); [|discriminate].
  destruct (N.leb_spec 1 n); [|discriminate]. destruct (N.leb_spec n 15); [|discriminate]. cbn [andb].
  intro E. injection E as <-. unfold msb. rewrite rev_length, lsb_length. lia.
Qed.

(** ** Inversion *)
Lemma store_code_spec n : forall into p,
  NoDup (map snd (paths n)) ->
  (forall s, In s (map snd (paths n)) -> nth_error into (N.to_nat s) = Some None) ->
  exists into', store_code into (bitvec_of p) n = Ok into'
    /\ List.length into' = List.length into
    /\ (forall w s, In (w, s) (paths n) -> nth_error into' (N.to_nat s) = Some (Some (bitvec_of (p ++ w))))
    /\ (forall s, ~ In s (map snd (paths n)) -> nth_error into' (N.to_nat s) = nth_error into (N.to_nat s)).
Proof.
  induction n as [x|a IHa b IHb]; intros into p ND HN; cbn [paths map snd] in *.
  - cbn [store_code]. unfold get_idx. rewrite (HN x) by now left. cbn [obind].
    unfold set_idx. assert (N.to_nat x < List.length into)%nat by (apply nth_error_Some; rewrite (HN x) by (now left); discriminate).
    replace (Nat.ltb _ _) with true by (symmetry; apply Nat.ltb_lt; lia).
    eexists. split; [reflexivity|]. split; [apply upd_length|]. split.
    + intros w s [E|[]]. inversion E; subst. rewrite nth_error_upd, Nat.eqb_refl, HN by now left.
      now rewrite app_nil_r.
    + intros s Hs. rewrite nth_error_upd. replace (Nat.eqb _ _) with false; [reflexivity|].
      symmetry. apply Nat.eqb_neq. intro E. apply N2Nat.inj in E. apply Hs. now left.
  - rewrite map_app, !map_map in *. cbn [snd] in *.
    assert (NDa : NoDup (map snd (paths a))).
    { clear - ND. induction (map (fun x => snd x) (paths a)) as [|y l IH]; [constructor|].
      cbn in ND. inversion ND; subst. constructor; [|auto]. intro. apply H1. apply in_app_iff. now left. }
    assert (NDb : NoDup (map snd (paths b))).
    { clear - ND. induction (map (fun x => snd x) (paths a)) as [|y l IH]; [exact ND|].
      cbn in ND. inversion ND; subst. auto. }
    assert (DIS : forall s, In s (map snd (paths a)) -> ~ In s (map snd (paths b))).
    { clear - ND. change (fun x : list bool * N => snd x) with (@snd (list bool) N) in ND.
      induction (map snd (paths a)) as [|y l IH]; intros s [].
      - subst. cbn in ND. inversion ND; subst. intro. apply H1. apply in_app_iff. now right.
      - cbn in ND. inversion ND; subst. auto. }
    cbn [store_code]. unfold plus_bit. rewrite bv_push_spec. cbn [obind].
    destruct (IHa into (p ++ [false]) NDa) as (i1 & E1 & L1 & P1 & Q1).
    { intros s Hs. apply HN. apply in_app_iff. now left. }
    rewrite E1. cbn [obind]. rewrite bv_push_spec. cbn [obind].
    destruct (IHb i1 (p ++ [true]) NDb) as (i2 & E2 & L2 & P2 & Q2).
    { intros s Hs. rewrite Q1. { apply HN. apply in_app_iff. now right. }
      intro HH. exact (DIS _ HH Hs). }
    exists i2. split; [exact E2|]. split; [congruence|]. split.
    + intros w s H. apply in_app_iff in H. rewrite !in_map_iff in H.
      destruct H as [((w' & s') & E & H)|((w' & s') & E & H)]; cbn [fst snd] in E; inversion E; subst.
      * rewrite Q2.
        -- rewrite (P1 _ _ H), <- app_assoc. reflexivity.
        -- apply DIS. apply in_map_iff. exists (w', s). auto.
      * rewrite (P2 _ _ H), <- app_assoc. reflexivity.
    + intros s Hs. rewrite in_app_iff in Hs. change (fun x : list bool * N => snd x) with (@snd (list bool) N) in Hs.
      rewrite Q2 by tauto. apply Q1. tauto.
Qed.

Lemma tree_invert_spec lens t : tree_new lens = Ok t -> (List.length lens <= 288)%nat ->
  exists inv, tree_invert t = Ok inv /\ List.length inv = 288%nat
    /\ forall s, s < 288 ->
         nth_error inv (N.to_nat s) = Some (match rfc_code lens s with Some w => Some (bitvec_of w) | None => None end).
Proof.
  intros HT HL. assert (T := tree_new_spec lens ltac:(lia)). rewrite HT in T. destruct T as [_ HP].
  set (root := Internal (ct_left t) (ct_right t)) in *.
  assert (ND : NoDup (map snd (paths root))) by (rewrite HP; apply code_entries_NoDup; lia).
  assert (EI : tree_invert t = store_code (repeat None 288) (bitvec_of []) root) by reflexivity.
  rewrite EI.
  destruct (store_code_spec root (repeat None 288) [] ND) as (inv & E & L & P & Q).
  { intros s Hs. rewrite HP in Hs. apply code_entries_syms in Hs; [|lia]. destruct Hs as (l & _ & Hs).
    assert (N.to_nat s < List.length lens)%nat by (apply nth_error_Some; congruence).
    rewrite nth_error_repeat; [reflexivity|lia]. }
  exists inv. split; [exact E|]. rewrite repeat_length in L. split; [exact L|].
  intros s Hs. destruct (rfc_code lens s) as [w|] eqn:EC.
  - apply rfc_code_entries in EC. rewrite <- HP in EC. rewrite (P _ _ EC). reflexivity.
  - rewrite Q.
    + rewrite nth_error_repeat; [reflexivity|lia].
    + intro H. rewrite HP in H. apply in_map_iff in H. destruct H as ((w & s') & E' & H). cbn in E'. subst.
      apply rfc_code_entries in H. congruence.
Qed.

Lemma rfc_prefix_free lens s1 s2 w1 w2 x : complete lens -> N.of_nat (List.length lens) <= 65536 ->
  rfc_code lens s1 = Some w1 -> rfc_code lens s2 = Some w2 -> w2 = w1 ++ x -> s1 = s2.
Proof.
  intros HC HL H1 H2 E. assert (T := tree_new_spec lens HL).
  destruct (tree_new lens) as [t| | |] eqn:ET; try tauto.
  assert (TO : tree_of lens t) by (split; assumption).
  assert (D1 : decode_symbol (rbl (EofPanic "")) t (w1 ++ x) = (Ok s1, x))
    by (apply (decode_symbol_spec _ lens); eauto).
  assert (D2 : decode_symbol (rbl (EofPanic "")) t (w2 ++ []) = (Ok s2, []))
    by (apply (decode_symbol_spec _ lens); eauto).
  rewrite app_nil_r, E in D2. congruence.
Qed.
