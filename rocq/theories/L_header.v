(** Lemmas: dynamic headers and block bodies match the RFC 1951 grammar. *)
From Verif Require Import Base M_bit M_lib M_code_tree M_huffman M_parse Spec L_bits L_reader L_bitprops L_stored L_tree L_huff.
From Coq Require Import ZArith ZifyBool ZifyNat ZifyN.
Ltac Zify.zify_post_hook ::= Z.div_mod_to_equations.
Local Open Scope N_scope.
Local Open Scope model_scope.

Lemma tree_of_iff lens : N.of_nat (List.length lens) <= 65536 ->
  (complete lens <-> exists t, tree_new lens = Ok t).
Proof.
  intro HL. assert (T := tree_new_spec lens HL). split.
  - intro C. destruct (tree_new lens); try tauto. eauto.
  - intros (t & E). rewrite E in T. tauto.
Qed.

(** ** Code length code *)
Definition put_all (l : list N) (ps : list (nat * N)) : list N :=
  fold_left (fun l p => upd l (fst p) (snd p)) ps l.

Lemma put_all_length l ps : List.length (put_all l ps) = List.length l.
Proof. revert l. induction ps; intro l; [reflexivity|]. cbn. unfold put_all in IHps. rewrite IHps. apply upd_length. Qed.

Lemma cl_order_pos i : (i < 15)%nat ->
  nth (4 + i) cl_order 0%nat = (if Nat.even i then (8 + i / 2)%nat else (7 - i / 2)%nat) /\ (nth (4 + i) cl_order 0 < 19)%nat.
Proof.
  intro H. do 15 (destruct i as [|i]; [split; [reflexivity|cbn; lia]|]). lia.
Qed.

Lemma skipn_cl_order i : (i < 15)%nat ->
  skipn (4 + i) cl_order = nth (4 + i) cl_order 0%nat :: skipn (4 + S i) cl_order.
Proof. intro H. do 15 (destruct i as [|i]; [reflexivity|]). lia. Qed.

Lemma pspec_cl_loop k n : forall i lens, (i + n <= 15)%nat -> List.length lens = 19%nat ->
  pspec (read_cl_loop (rbl k) (seq i n) lens)
        (fun r w => exists vs, List.length vs = n /\ Forall (fun c => c < 8) vs /\ w = flat_map (lsb 3) vs
                    /\ r = put_all lens (combine (skipn (4 + i) cl_order) vs)).
Proof.
  induction n; intros i lens Hi HL.
  - cbn [seq read_cl_loop]. apply (pspec_weaken _ _ _ (pspec_ret lens)). intros r w. split.
    + intros [-> ->]. exists []. repeat split; auto. destruct (skipn (4 + i) cl_order); reflexivity.
    + intros (vs & Hl & _ & -> & ->). destruct vs; [|discriminate].
      destruct (skipn (4 + i) cl_order); auto.
  - cbn [seq read_cl_loop].
    destruct (cl_order_pos i ltac:(lia)) as [HP HB]. rewrite <- HP.
    set (pos := nth (4 + i) cl_order 0%nat) in *.
    eapply pspec_weaken.
    { eapply (pspec_bind _ _ (fun v w => v < 2 ^ 3 /\ w = lsb (N.to_nat 3) v)
                (fun v r w => exists a w1 w2, w = w1 ++ w2 /\ (set_idx lens pos (v mod 256) = Ok a /\ w1 = []) /\
                    exists vs, List.length vs = n /\ Forall (fun c => c < 8) vs /\ w2 = flat_map (lsb 3) vs
                    /\ r = put_all a (combine (skipn (4 + S i) cl_order) vs))).
      - apply pspec_read_part. discriminate.
      - intros v w _. eapply (pspec_bind _ _ (fun a w => set_idx lens pos (v mod 256) = Ok a /\ w = []) (fun a r w2 => exists vs, List.length vs = n /\ Forall (fun c => c < 8) vs /\ w2 = flat_map (lsb 3) vs
                    /\ r = put_all a (combine (skipn (4 + S i) cl_order) vs))).
        + apply pspec_lift.
        + intros a w' [E _]. apply IHn; [lia|]. unfold set_idx in E.
          destruct (Nat.ltb pos (List.length lens)); [|discriminate]. injection E as <-. now rewrite upd_length. }
    assert (SI : forall v, set_idx lens pos v = Ok (upd lens pos v)).
    { intro v. unfold set_idx. replace (Nat.ltb _ _) with true; [reflexivity|]. symmetry. apply Nat.ltb_lt. rewrite HL. exact HB. }
    intros r w. rewrite (skipn_cl_order i) by (clear - Hi; lia). fold pos. split.
    + intros (v & w1 & w2 & -> & (Hv & ->) & a & w3 & w4 & -> & (E & ->) & vs & Hl & Hf & -> & ->).
      rewrite SI in E. injection E as <-. change (2 ^ 3) with 8 in Hv. rewrite N.mod_small by lia.
      exists (v :: vs). cbn [List.length flat_map combine]. repeat split; auto.
    + intros (vs & Hl & Hf & -> & ->). destruct vs as [|v vs]; [discriminate|].
      inversion Hf; subst. exists v, (lsb 3 v), (flat_map (lsb 3) vs). repeat split; auto.
      exists (upd lens pos (v mod 256)), [], (flat_map (lsb 3) vs). repeat split; [apply SI|].
      exists vs. repeat split; auto. rewrite N.mod_small by lia. reflexivity.
Qed.

Lemma cl_lens_put cls : (4 <= List.length cls <= 19)%nat ->
  put_all (repeat 0 19) (combine cl_order cls) = cl_lens cls.
Proof.
  intro H. destruct cls as [|c0 [|c1 [|c2 [|c3 cls]]]]; cbn [List.length] in H; try lia.
  do 16 (destruct cls as [|? cls]; [reflexivity|]). cbn [List.length] in H. lia.
Qed.

Lemma cl_lens_length cls : List.length (cl_lens cls) = 19%nat.
Proof. unfold cl_lens. now rewrite map_length, seq_length. Qed.

(** ** Run-length coded lengths *)
Lemma expand_le prev items out : expand prev items out ->
  match prev with Some p => p <= 15 | None => True end -> Forall (fun l => l <= 15) out.
Proof.
  induction 1; intro Hp.
  - constructor.
  - constructor; auto.
  - apply Forall_app. split; [|auto]. apply Forall_forall. intros x Hx. apply repeat_spec in Hx. now subst.
  - apply Forall_app. split; [|apply IHexpand; lia]. apply Forall_forall. intros x Hx. apply repeat_spec in Hx. subst. lia.
  - apply Forall_app. split; [|apply IHexpand; lia]. apply Forall_forall. intros x Hx. apply repeat_spec in Hx. subst. lia.
Qed.

Lemma expand_nil prev items : expand prev items [] -> items = [].
Proof.
  intro H. remember [] as out eqn:EO.
  destruct H; [reflexivity|discriminate| | |]; exfalso;
    apply (f_equal (@List.length N)) in EO; rewrite app_length, repeat_length in EO; cbn in EO; lia.
Qed.

Lemma upd_mid {A} (pre : list A) x y suf : upd (pre ++ x :: suf) (List.length pre) y = (pre ++ [y]) ++ suf.
Proof. induction pre; cbn; [reflexivity|]. now rewrite IHpre. Qed.

Section Lens.
  Context (k : eofk) (cl : list N) (t : code_tree) (len : nat).
  Hypothesis HT : tree_of cl t.
  Hypothesis HCL : List.length cl = 19%nat.

  (** What is still to come when the table filled so far is [pre]. *)
  Definition to_come (rv : option N) (rl : N) (pre : list N) (lens' : list N) (w : list bool) : Prop :=
    exists items out, expand rv items out /\ items_bits cl items w
      /\ lens' = pre ++ (match rv with Some v => repeat v (N.to_nat rl) | None => [] end) ++ out
      /\ List.length lens' = len.

  Lemma read_lens_spec fuel : forall (rv : option N) (rl : N) (pre : list N),
    (List.length pre < len)%nat ->
    (2 * (len - List.length pre) + (if (rl =? 0)%N then 1 else 0) <= fuel)%nat ->
    (rl <> 0 -> rv <> None) ->
    forall bs lens' bs',
    read_lens_loop (rbl k) fuel t len (List.length pre) rv rl (pre ++ repeat 0 (len - List.length pre)) bs
      = (Ok (0, lens'), bs')
    <-> exists w, bs = w ++ bs' /\ to_come rv rl pre lens' w.
  Proof.
    induction fuel as [|fuel IH]; intros rv rl pre Hi Hf Hrv bs lens' bs'.
    { destruct (rl =? 0); lia. }
    cbn [read_lens_loop].
    set (cont := fun i run_val run_len code_lens => if Nat.leb len i then ret (run_len, code_lens)
                   else read_lens_loop (rbl k) fuel t len i run_val run_len code_lens).
    (* continuing after one more entry *)
    assert (STEP : forall rv rl x, (rl <> 0 -> rv = Some x) -> forall bs lens' bs',
              cont (List.length pre + 1)%nat rv rl ((pre ++ [x]) ++ repeat 0 (len - (List.length pre + 1))) bs = (Ok (0, lens'), bs')
              <-> exists w, bs = w ++ bs' /\ to_come rv rl (pre ++ [x]) lens' w).
    { clear bs lens' bs'. intros rv0 rl0 x Hx bs lens' bs'. unfold cont.
      destruct (Nat.leb_spec len (List.length pre + 1)) as [L|L].
      - replace (len - (List.length pre + 1))%nat with 0%nat by lia. cbn [repeat]. rewrite app_nil_r.
        unfold ret. split.
        + intro E. inversion E; subst. exists []. split; [reflexivity|]. exists [], []. repeat split.
          * constructor.
          * constructor.
          * rewrite app_nil_r. destruct rv0; cbn; now rewrite ?app_nil_r.
          * rewrite app_length. cbn. lia.
        + intros (w & -> & items & out & HE & HB & EL & HL).
          assert (LL := f_equal (@List.length N) EL). rewrite HL, !app_length in LL. cbn [List.length] in LL.
          assert (out = []) as -> by (destruct out; [reflexivity|cbn [List.length] in LL; lia]).
          assert (items = []) as ->.
          { now apply expand_nil in HE. }
          inversion HB; subst. cbn [app].
          assert (rl0 = 0).
          { destruct (N.eq_dec rl0 0); [assumption|]. rewrite (Hx n) in LL. rewrite repeat_length in LL.
            cbn [List.length] in LL. lia. }
          subst rl0. destruct rv0; cbn [N.to_nat repeat app]; now rewrite ?app_nil_r.
      - replace (len - (List.length pre + 1))%nat with (len - List.length (pre ++ [x]))%nat
          by (rewrite app_length; cbn; lia).
        replace (List.length pre + 1)%nat with (List.length (pre ++ [x])) by (rewrite app_length; cbn; lia).
        apply IH.
        + rewrite app_length. cbn. lia.
        + rewrite app_length. cbn. destruct (rl0 =? 0), (rl =? 0); lia.
        + intros Hn. rewrite (Hx Hn). discriminate. }
    assert (SPLIT : repeat 0 (len - List.length pre) = 0 :: repeat 0 (len - (List.length pre + 1))).
    { replace (len - List.length pre)%nat with (S (len - (List.length pre + 1))) by lia. reflexivity. }
    assert (SETI : forall x, set_idx (pre ++ repeat 0 (len - List.length pre)) (List.length pre) x
                     = Ok ((pre ++ [x]) ++ repeat 0 (len - (List.length pre + 1)))).
    { intro x. unfold set_idx. rewrite app_length, repeat_length.
      replace (Nat.ltb _ _) with true by (symmetry; apply Nat.ltb_lt; lia).
      rewrite SPLIT, upd_mid. reflexivity. }
    destruct (N.ltb_spec 0 rl) as [Hrl|Hrl].
    - destruct rv as [v|]; [|exfalso; apply Hrv; [lia|reflexivity]].
      rewrite SETI. unfold bind at 1, lift at 1. fold cont.
      refine (iff_trans (STEP (Some v) (rl - 1) v _ _ _ _) _); [reflexivity|].
      assert (EQ : forall w, to_come (Some v) (rl - 1) (pre ++ [v]) lens' w <-> to_come (Some v) rl pre lens' w).
      { intro w. unfold to_come. cbn [option_map].
        replace (N.to_nat rl) with (S (N.to_nat (rl - 1))) by lia. cbn [repeat].
        split; intros (items & out & H1 & H2 & -> & H4); exists items, out; repeat split; auto;
          rewrite <- ?app_assoc in *; cbn [app] in *; auto. }
      split; intros (w & -> & H); exists w; split; auto; now apply EQ.
    - assert (rl = 0) as -> by lia. clear Hrl Hrv.
      assert (NR : match rv with Some v => repeat v (N.to_nat 0) | None => [] end = []) by now destruct rv.
      (* starting a run at the same position *)
      assert (RUN : forall v n, 0 < n -> forall bs lens' bs',
                cont (List.length pre) (Some v) n (pre ++ repeat 0 (len - List.length pre)) bs = (Ok (0, lens'), bs')
                <-> exists w, bs = w ++ bs' /\ to_come (Some v) n pre lens' w).
      { clear bs lens' bs'. intros v n Hn bs lens' bs'. unfold cont.
        replace (Nat.leb len (List.length pre)) with false by (symmetry; apply Nat.leb_gt; lia).
        apply IH; [lia| |discriminate]. change (0 =? 0) with true in Hf. cbn iota in Hf.
        destruct (N.eqb_spec n 0); lia. }
      split.
      + intro E. unfold bind at 1 in E.
        destruct (decode_symbol (rbl k) t bs) as [o bs1] eqn:ED. destruct o as [sym| | |]; try discriminate.
        apply (decode_symbol_spec k cl t) in ED; [|assumption]. destruct ED as (w1 & -> & HC).
        assert (SB := rfc_code_bound _ _ _ HC). rewrite HCL in SB.
        destruct (N.leb_spec sym 15) as [L15|L15].
        { unfold bind at 1 in E. unfold lift at 1 in E. rewrite SETI in E. fold cont in E.
          rewrite N.mod_small in E by lia.
          apply STEP in E; [|congruence]. destruct E as (w2 & -> & items & out & HE & HB & EL & HL).
          exists (w1 ++ w2). rewrite app_assoc. split; [reflexivity|].
          exists (CLen sym :: items), (sym :: out). repeat split.
          - constructor; assumption.
          - constructor; [now constructor|assumption].
          - rewrite NR. rewrite EL. cbn [N.to_nat repeat app]. now rewrite <- app_assoc.
          - assumption. }
        destruct (N.eqb_spec sym 16) as [->|N16].
        { destruct rv as [p|]; [|discriminate]. cbn [ensure] in E. unfold bind at 1, ret at 1 in E.
          unfold bind at 1 in E. destruct (read_part (rbl k) 2 bs1) as [o bs2] eqn:ER.
          destruct o as [n| | |]; try discriminate. fold cont in E.
          apply pspec_read_part in ER; [|lia]. destruct ER as (w2 & -> & Hn & ->).
          change (2 ^ 2) with 4 in Hn. apply RUN in E; [|lia].
          destruct E as (w3 & -> & items & out & HE & HB & EL & HL).
          exists (w1 ++ lsb (N.to_nat 2) n ++ w3). rewrite <- !app_assoc. split; [reflexivity|].
          exists (CCopy (n + 3) :: items), (repeat p (N.to_nat (n + 3)) ++ out). repeat split.
          - constructor; [lia|assumption].
          - rewrite app_assoc. constructor; [|assumption].
            assert (HI : item_bits cl (CCopy (n + 3)) (w1 ++ lsb 2 (n + 3 - 3))) by now constructor.
            replace (n + 3 - 3) with n in HI by lia. exact HI.
          - rewrite NR. exact EL.
          - assumption. }
        destruct (N.eqb_spec sym 17) as [->|N17].
        { unfold bind at 1 in E. destruct (read_part (rbl k) 3 bs1) as [o bs2] eqn:ER.
          destruct o as [n| | |]; try discriminate. fold cont in E.
          apply pspec_read_part in ER; [|lia]. destruct ER as (w2 & -> & Hn & ->).
          change (2 ^ 3) with 8 in Hn. apply RUN in E; [|lia].
          destruct E as (w3 & -> & items & out & HE & HB & EL & HL).
          exists (w1 ++ lsb (N.to_nat 3) n ++ w3). rewrite <- !app_assoc. split; [reflexivity|].
          exists (CZeros3 (n + 3) :: items), (repeat 0 (N.to_nat (n + 3)) ++ out). repeat split.
          - constructor; [lia|assumption].
          - rewrite app_assoc. constructor; [|assumption].
            assert (HI : item_bits cl (CZeros3 (n + 3)) (w1 ++ lsb 3 (n + 3 - 3))) by now constructor.
            replace (n + 3 - 3) with n in HI by lia. exact HI.
          - rewrite NR. exact EL.
          - assumption. }
        destruct (N.eqb_spec sym 18) as [->|N18].
        { unfold bind at 1 in E. destruct (read_part (rbl k) 7 bs1) as [o bs2] eqn:ER.
          destruct o as [n| | |]; try discriminate. fold cont in E.
          apply pspec_read_part in ER; [|lia]. destruct ER as (w2 & -> & Hn & ->).
          change (2 ^ 7) with 128 in Hn. apply RUN in E; [|lia].
          destruct E as (w3 & -> & items & out & HE & HB & EL & HL).
          exists (w1 ++ lsb (N.to_nat 7) n ++ w3). rewrite <- !app_assoc. split; [reflexivity|].
          exists (CZeros11 (n + 11) :: items), (repeat 0 (N.to_nat (n + 11)) ++ out). repeat split.
          - constructor; [lia|assumption].
          - rewrite app_assoc. constructor; [|assumption].
            assert (HI : item_bits cl (CZeros11 (n + 11)) (w1 ++ lsb 7 (n + 11 - 11))) by now constructor.
            replace (n + 11 - 11) with n in HI by lia. exact HI.
          - rewrite NR. exact EL.
          - assumption. }
        lia.
      + intros (w & -> & items & out & HE & HB & EL & HL). rewrite NR in EL. cbn [app] in EL.
        assert (DEC : forall s w rest, rfc_code cl s = Some w -> decode_symbol (rbl k) t (w ++ rest) = (Ok s, rest)).
        { intros s w0 rest0 HC. apply (decode_symbol_spec k cl t); eauto. }
        assert (RP : forall n v rest, n <= 16 -> v < 2 ^ n -> read_part (rbl k) n (lsb (N.to_nat n) v ++ rest) = (Ok v, rest)).
        { intros n v rest0 Hn Hv. apply pspec_read_part; [assumption|]. eauto. }
        destruct HE as [prev|prev l is out' Hl HE|p n is out' Hn HE|prev n is out' Hn HE|prev n is out' Hn HE].
        { exfalso. rewrite app_nil_r in EL. subst lens'. lia. }
        { inversion HB as [|? ? w1 w2 HI HB']; subst. inversion HI; subst.
          rewrite <- app_assoc. unfold bind at 1. rewrite (DEC l w1) by assumption.
          replace (l <=? 15) with true by (symmetry; apply N.leb_le; lia).
          unfold bind at 1, lift at 1. rewrite SETI. fold cont. rewrite N.mod_small by lia.
          apply STEP; [congruence|]. exists w2. split; [reflexivity|].
          exists is, out'. repeat split; auto. cbn [N.to_nat repeat app]. now rewrite <- app_assoc. }
        { inversion HB as [|? ? w1 w2 HI HB']; subst. inversion HI; subst.
          rewrite <- !app_assoc. unfold bind at 1. rewrite (DEC 16 w) by assumption.
          change (16 <=? 15) with false. change (16 =? 16) with true. cbn iota. cbn [ensure].
          unfold bind at 1, ret at 1. unfold bind at 1.
          rewrite (RP 2 (n - 3)); [|lia|change (2 ^ 2) with 4; lia]. fold cont.
          replace (n - 3 + 3) with n by lia. apply RUN; [lia|]. exists w2. split; [reflexivity|].
          exists is, out'. repeat split; auto. }
        { inversion HB as [|? ? w1 w2 HI HB']; subst. inversion HI; subst.
          rewrite <- !app_assoc. unfold bind at 1. rewrite (DEC 17 w) by assumption.
          change (17 <=? 15) with false. change (17 =? 16) with false. change (17 =? 17) with true. cbn iota.
          unfold bind at 1.
          rewrite (RP 3 (n - 3)); [|lia|change (2 ^ 3) with 8; lia]. fold cont.
          replace (n - 3 + 3) with n by lia. apply RUN; [lia|]. exists w2. split; [reflexivity|].
          exists is, out'. repeat split; auto. }
        { inversion HB as [|? ? w1 w2 HI HB']; subst. inversion HI; subst.
          rewrite <- !app_assoc. unfold bind at 1. rewrite (DEC 18 w) by assumption.
          change (18 <=? 15) with false. change (18 =? 16) with false. change (18 =? 17) with false.
          change (18 =? 18) with true. cbn iota.
          unfold bind at 1.
          rewrite (RP 7 (n - 11)); [|lia|change (2 ^ 7) with 128; lia]. fold cont.
          replace (n - 11 + 11) with n by lia. apply RUN; [lia|]. exists w2. split; [reflexivity|].
          exists is, out'. repeat split; auto. }
  Qed.
End Lens.

(** ** Distance tables *)
Definition ones_only (dl : list N) : Prop :=
  List.length (filter (fun x => x =? 1) dl) = 1%nat /\ List.length (filter (fun x => 1 <? x) dl) = 0%nat.

Lemma ones_only_shape dl : ones_only dl <-> exists a b, dl = repeat 0 a ++ [1] ++ repeat 0 b.
Proof.
  unfold ones_only. split.
  - intros [H1 H2].
    assert (Z : forall l, List.length (filter (fun x => x =? 1) l) = 0%nat ->
                          List.length (filter (fun x => 1 <? x) l) = 0%nat -> l = repeat 0 (List.length l)).
    { induction l as [|x l IH]; intros A B; [reflexivity|]. cbn [filter List.length repeat] in *.
      destruct (N.eqb_spec x 1); [discriminate|]. destruct (N.ltb_spec 1 x); [discriminate|].
      f_equal; [lia|auto]. }
    revert H1 H2. induction dl as [|x dl IH]; intros H1 H2; [discriminate|].
    cbn [filter] in *. destruct (N.ltb_spec 1 x); [discriminate|].
    destruct (N.eqb_spec x 1).
    + subst x. cbn [List.length] in H1. injection H1 as H1. exists 0%nat, (List.length dl). cbn. f_equal. now apply Z.
    + destruct (IH H1 H2) as (a & b & ->). exists (S a), b. cbn. f_equal. lia.
  - intros (a & b & ->). rewrite !filter_app, !app_length.
    assert (F1 : forall n, filter (fun x => x =? 1) (repeat 0 n) = []) by (induction n; auto).
    assert (F2 : forall n, filter (fun x => 1 <? x) (repeat 0 n) = []) by (induction n; auto).
    rewrite !F1, !F2. cbn. auto.
Qed.

Lemma bl_count_zeros a l : l <> 0 -> bl_count (repeat 0 a) l = 0.
Proof.
  intro H. induction a; [reflexivity|]. cbn [repeat]. rewrite bl_count_cons, IHa.
  destruct (N.eqb_spec l 0); [contradiction|reflexivity].
Qed.

Lemma rfc_code_single a suf s : (forall i, nth_error suf i <> Some 1 \/ True) ->
  (N.to_nat s <= a)%nat ->
  rfc_code (repeat 0 a ++ [1] ++ suf) s = if Nat.eqb (N.to_nat s) a then Some [false] else None.
Proof.
  intros _ H. unfold rfc_code. destruct (Nat.eqb_spec (N.to_nat s) a) as [E|E].
  - rewrite nth_error_app2 by (rewrite repeat_length; lia). rewrite repeat_length, E, Nat.sub_diag.
    cbn [app nth_error]. change ((1 <=? 1) && (1 <=? 15)) with true. cbn iota.
    rewrite firstn_app, repeat_length, Nat.sub_diag. cbn [firstn]. rewrite app_nil_r.
    rewrite firstn_all2 by (rewrite repeat_length; lia). rewrite bl_count_zeros by lia. reflexivity.
  - rewrite nth_error_app1 by (rewrite repeat_length; lia). rewrite nth_error_repeat by lia. reflexivity.
Qed.

Lemma kraft_app a b : kraft (a ++ b) = kraft a + kraft b.
Proof.
  unfold kraft. induction a as [|x a IH]; [reflexivity|]. cbn [app map fold_right]. rewrite IH. lia.
Qed.

Lemma kraft_zeros n : kraft (repeat 0 n) = 0.
Proof. induction n; [reflexivity|]. unfold kraft in *. cbn [repeat map fold_right]. rewrite IHn. reflexivity. Qed.

Lemma repeat_app {A} (x : A) n m : repeat x (n + m) = repeat x n ++ repeat x m.
Proof. induction n; cbn; [reflexivity|]. now rewrite IHn. Qed.

Lemma firstn_repeat {A} (x : A) n m : firstn n (repeat x m) = repeat x (Nat.min n m).
Proof. revert m. induction n; intros [|m]; cbn; auto. now rewrite IHn. Qed.

(** The lengths the distance tree is actually built from. *)
Definition dist_built (dl lens' : list N) : Prop :=
  (List.length lens' <= 32)%nat /\ (forall s, s <= 30 -> rfc_code lens' s = rfc_code dl s).

Lemma dist_tree_of_spec dl : (1 <= List.length dl <= 32)%nat -> dl <> [0] ->
  match dist_tree_of dl with
  | Ok t => dist_lens_ok dl /\ exists lens', tree_of lens' t /\ dist_built dl lens'
  | Err _ => ~ dist_lens_ok dl
  | _ => False
  end.
Proof.
  intros HL HZ. unfold dist_tree_of.
  destruct (Nat.eqb_spec 1 (List.length (filter (fun x => x =? 1) dl))) as [E1|E1];
  [destruct (Nat.eqb_spec 0 (List.length (filter (fun x => 1 <? x) dl))) as [E2|E2]|]; cbn [andb].
  - assert (OO : ones_only dl) by (split; auto).
    apply ones_only_shape in OO. destruct OO as (a & b & ->).
    set (dl := repeat 0 a ++ [1] ++ repeat 0 b) in *.
    assert (LD : List.length dl = (a + 1 + b)%nat).
    { unfold dl. rewrite !app_length, !repeat_length. cbn. lia. }
    destruct (Nat.lt_ge_cases a 31) as [La|La].
    + set (lens' := firstn (Nat.min (List.length dl) 31) dl ++ repeat 0 (31 - Nat.min (List.length dl) 31) ++ [1]).
      assert (EL : lens' = repeat 0 a ++ [1] ++ repeat 0 (30 - a) ++ [1]).
      { unfold lens'. rewrite LD. unfold dl at 1.
        rewrite firstn_app, firstn_repeat, repeat_length.
        replace (Nat.min (Nat.min (a + 1 + b) 31) a) with a by lia. rewrite <- app_assoc. f_equal.
        replace (Nat.min (a + 1 + b) 31 - a)%nat with (S (Nat.min b (30 - a))) by lia.
        cbn [app firstn]. f_equal. rewrite firstn_repeat, app_assoc, <- repeat_app. do 2 f_equal. lia. }
      rewrite EL.
      assert (LL : List.length (repeat 0 a ++ [1] ++ repeat 0 (30 - a) ++ [1]) = 32%nat).
      { rewrite !app_length, !repeat_length. cbn [List.length]. lia. }
      assert (CM : complete (repeat 0 a ++ [1] ++ repeat 0 (30 - a) ++ [1])).
      { split; [lia|]. rewrite !kraft_app, !kraft_zeros. reflexivity. }
      assert (HT := CM). apply tree_of_iff in HT; [|lia]. destruct HT as (t & ET). rewrite ET.
      split. { right. left. exists a, b. auto. }
      exists (repeat 0 a ++ [1] ++ repeat 0 (30 - a) ++ [1]). split; [split; [assumption|lia]|]. split; [lia|].
      intros s Hs. destruct (Nat.le_gt_cases (N.to_nat s) a) as [L|L].
      * unfold dl. rewrite !rfc_code_single by auto. reflexivity.
      * unfold rfc_code, dl.
        assert (NE : forall suf : list N, nth_error (repeat 0 a ++ [1] ++ suf) (N.to_nat s) = nth_error suf (N.to_nat s - a - 1)).
        { intro suf. rewrite nth_error_app2 by (rewrite repeat_length; lia). rewrite repeat_length.
          replace (N.to_nat s - a)%nat with (S (N.to_nat s - a - 1)) at 1 by lia. reflexivity. }
        rewrite !NE.
        rewrite nth_error_app1 by (rewrite repeat_length; lia). rewrite nth_error_repeat by lia.
        destruct (nth_error (repeat 0 b) (N.to_nat s - a - 1)) as [x|] eqn:EN; [|reflexivity].
        apply nth_error_In in EN. apply repeat_spec in EN. now subst x.
    + assert (a = 31%nat /\ b = 0%nat) as [-> ->] by lia.
      assert (ND : ~ dist_lens_ok dl).
      { intros [H|[(a' & b' & H & Ha)|H]].
        - contradiction.
        - assert (N : nth_error dl a' = Some 1).
          { rewrite H, nth_error_app2 by (rewrite repeat_length; lia). rewrite repeat_length, Nat.sub_diag. reflexivity. }
          unfold dl in N. rewrite nth_error_app1 in N by (rewrite repeat_length; lia).
          rewrite nth_error_repeat in N by lia. discriminate.
        - destruct H as [_ H]. revert H. vm_compute. discriminate. }
      assert (EV : tree_new (firstn (Nat.min (List.length dl) 31) dl ++ repeat 0 (31 - Nat.min (List.length dl) 31) ++ [1])
                   = Err (EMsg "not a tree")) by (vm_compute; reflexivity).
      rewrite EV. exact ND.
  - assert (T := tree_new_spec dl ltac:(lia)). destruct (tree_new dl) as [t| | |] eqn:ET; try tauto.
    + destruct T as [TC _]. split; [right; right; exact TC|]. exists dl. split; [split; [assumption|lia]|]. split; [lia|auto].
    + intros [H|[(a & b & H & Ha)|H]]; try contradiction.
      assert (OO : ones_only dl) by (apply ones_only_shape; eauto). destruct OO. lia.
  - assert (T := tree_new_spec dl ltac:(lia)). destruct (tree_new dl) as [t| | |] eqn:ET; try tauto.
    + destruct T as [TC _]. split; [right; right; exact TC|]. exists dl. split; [split; [assumption|lia]|]. split; [lia|auto].
    + intros [H|[(a & b & H & Ha)|H]]; try contradiction.
      assert (OO : ones_only dl) by (apply ones_only_shape; eauto). destruct OO. lia.
Qed.

(** The distance side of a table pair, as used by the block body. *)
Definition dist_table (dl : list N) (dt : option code_tree) : Prop :=
  match dt with
  | None => forall s, rfc_code dl s = None
  | Some t => exists lens', tree_of lens' t /\ dist_built dl lens'
  end.

(** ** Whole header *)
Definition header_trees (p : code_tree * option code_tree) (w : list bool) : Prop :=
  exists ll dl, dyn_header ll dl w /\ tree_new ll = Ok (fst p)
    /\ match snd p with
       | None => dl = [0]
       | Some t => dl <> [0] /\ dist_tree_of dl = Ok t
       end.

Lemma is_single_zero (dl : list N) : 
  match dl with [x] => 0 =? x | _ => false end = true <-> dl = [0].
Proof.
  destruct dl as [|x [|y dl]].
  - split; discriminate.
  - rewrite N.eqb_eq. split; intro H; [now rewrite <- H|]. injection H as ->. reflexivity.
  - split; discriminate.
Qed.

Lemma bind_inv {S A B} (m : M S A) (g : A -> M S B) s b s2 : bind m g s = (Ok b, s2) ->
  exists a s1, m s = (Ok a, s1) /\ g a s1 = (Ok b, s2).
Proof. unfold bind. destruct (m s) as [[a| | |] s1]; intro E; try discriminate. eauto. Qed.

Lemma bind_ok {S A B} (m : M S A) (g : A -> M S B) s a s1 : m s = (Ok a, s1) -> bind m g s = g a s1.
Proof. intro E. unfold bind. now rewrite E. Qed.

Lemma lift_inv {S A} (x : outcome A) (s : S) a s1 : lift x s = (Ok a, s1) -> x = Ok a /\ s1 = s.
Proof. unfold lift. intro E. inversion E; subst; auto. Qed.

Lemma lift_ok {S A} (x : outcome A) (s : S) a : x = Ok a -> lift x s = (Ok a, s).
Proof. now intros ->. Qed.

Lemma ensure_inv {S} b m (s : S) u s1 : ensure b m s = (Ok u, s1) -> b = true /\ s1 = s.
Proof. destruct b; cbn; intro E; inversion E; auto. Qed.

Lemma set_idx_inv {A} (l : list A) i x l' : set_idx l i x = Ok l' -> l' = upd l i x.
Proof. unfold set_idx. destruct (Nat.ltb i (List.length l)); congruence. Qed.

Lemma set_idx_ok {A} (l : list A) i x : (i < List.length l)%nat -> set_idx l i x = Ok (upd l i x).
Proof. intro H. unfold set_idx. apply Nat.ltb_lt in H. now rewrite H. Qed.

Lemma read_lens_start k cl t len bs lens' bs' : tree_of cl t -> List.length cl = 19%nat -> (0 < len)%nat ->
  read_lens_loop (rbl k) (2 * len + 1) t len 0 None 0 (repeat 0 len) bs = (Ok (0, lens'), bs')
  <-> exists w items, bs = w ++ bs' /\ expand None items lens' /\ items_bits cl items w /\ List.length lens' = len.
Proof.
  intros HT HC HL.
  assert (L := read_lens_spec k cl t len HT HC (2 * len + 1) None 0 []). cbn [List.length app] in L.
  rewrite Nat.sub_0_r in L. specialize (L HL). change (0 =? 0) with true in L. cbn iota in L.
  specialize (L ltac:(lia) ltac:(congruence) bs lens' bs'). rewrite L. unfold to_come. cbn [app]. split.
  - intros (w & -> & items & out & H1 & H2 & -> & H4). eauto 7.
  - intros (w & items & -> & H1 & H2 & H3). exists w. split; [reflexivity|]. exists items, lens'. auto.
Qed.

Definition cl_head (a0 a1 a2 a3 : N) : list N := upd (upd (upd (upd (repeat 0 19) 16 a0) 17 a1) 18 a2) 0 a3.

Lemma cl_head_put a0 a1 a2 a3 vs : (List.length vs <= 15)%nat ->
  put_all (cl_head a0 a1 a2 a3) (combine (skipn (4 + 0) cl_order) vs) = cl_lens (a0 :: a1 :: a2 :: a3 :: vs).
Proof. intro H. rewrite <- cl_lens_put by (cbn [List.length]; lia). reflexivity. Qed.

Lemma read_codes_sound k bs lt dt bs' : read_codes (rbl k) bs = (Ok (lt, dt), bs') ->
  exists w, bs = w ++ bs' /\ header_trees (lt, dt) w.
Proof.
  intro E. unfold read_codes in E.
  apply bind_inv in E. destruct E as (hlit & bs1 & R1 & E).
  apply bind_inv in E. destruct E as (hdist & bs2 & R2 & E).
  apply bind_inv in E. destruct E as (hclen & bs3 & R3 & E).
  apply bind_inv in E. destruct E as (a0 & bs4 & R4 & E).
  apply bind_inv in E. destruct E as (l1 & bx & EX & E). apply lift_inv in EX. destruct EX as [EX ->]. apply set_idx_inv in EX.
  apply bind_inv in E. destruct E as (a1 & bs5 & R5 & E).
  apply bind_inv in E. destruct E as (l2 & bx & EX2 & E). apply lift_inv in EX2. destruct EX2 as [EX2 ->]. apply set_idx_inv in EX2.
  apply bind_inv in E. destruct E as (a2 & bs6 & R6 & E).
  apply bind_inv in E. destruct E as (l3 & bx & EX3 & E). apply lift_inv in EX3. destruct EX3 as [EX3 ->]. apply set_idx_inv in EX3.
  apply bind_inv in E. destruct E as (a3 & bs7 & R7 & E).
  apply bind_inv in E. destruct E as (l4 & bx & EX4 & E). apply lift_inv in EX4. destruct EX4 as [EX4 ->]. apply set_idx_inv in EX4.
  apply pspec_read_part in R1; [|lia]. destruct R1 as (w1 & -> & H1 & ->).
  apply pspec_read_part in R2; [|lia]. destruct R2 as (w2 & -> & H2 & ->).
  apply pspec_read_part in R3; [|lia]. destruct R3 as (w3 & -> & H3 & ->).
  apply pspec_read_part in R4; [|lia]. destruct R4 as (w4 & -> & H4 & ->).
  apply pspec_read_part in R5; [|lia]. destruct R5 as (w5 & -> & H5 & ->).
  apply pspec_read_part in R6; [|lia]. destruct R6 as (w6 & -> & H6 & ->).
  apply pspec_read_part in R7; [|lia]. destruct R7 as (w7 & -> & H7 & ->).
  change (2 ^ 5) with 32 in *. change (2 ^ 4) with 16 in *. change (2 ^ 3) with 8 in *.
  assert (EH : l4 = cl_head a0 a1 a2 a3).
  { subst l4 l3 l2 l1. rewrite !N.mod_small by lia. reflexivity. }
  clear EX EX2 EX3 EX4. subst l4.
  apply bind_inv in E. destruct E as (cll & bs8 & R8 & E).
  replace (N.to_nat (hclen + 4) - 4)%nat with (N.to_nat hclen) in R8 by lia.
  apply pspec_cl_loop in R8; [|lia|reflexivity]. destruct R8 as (w8 & -> & vs & LV & FV & -> & ECLL).
  rewrite cl_head_put in ECLL by lia.
  set (cls := a0 :: a1 :: a2 :: a3 :: vs) in *.
  assert (LC : List.length cls = (4 + N.to_nat hclen)%nat) by (unfold cls; cbn [List.length]; lia).
  subst cll.
  apply bind_inv in E. destruct E as (ct & bx & ECT & E). apply lift_inv in ECT. destruct ECT as [ECT ->].
  apply bind_inv in E. destruct E as ([rl lens] & bs9 & R9 & E).
  apply bind_inv in E. destruct E as (u & bx & EN & E). apply ensure_inv in EN. destruct EN as [EN ->].
  apply N.eqb_eq in EN. subst rl.
  apply (read_lens_start k (cl_lens cls)) in R9; [|split; [assumption|rewrite cl_lens_length; lia]|apply cl_lens_length|lia].
  destruct R9 as (w9 & items & -> & HE & HB & HL).
  apply bind_inv in E. destruct E as (lt' & bx & ELT & E). apply lift_inv in ELT. destruct ELT as [ELT ->].
  remember (N.to_nat (hlit + 257)) as nl eqn:Enl. remember (N.to_nat (hdist + 1)) as nd eqn:End.
  assert (LF : List.length (firstn nl lens) = nl) by (rewrite firstn_length; lia).
  assert (LS : List.length (skipn nl lens) = nd) by (rewrite skipn_length; lia).
  assert (DH' : dist_lens_ok (skipn nl lens) ->
           dyn_header (firstn nl lens) (skipn nl lens) (lsb 5 hlit ++ lsb 5 hdist ++ lsb 4 hclen ++ flat_map (lsb 3) cls ++ w9)).
  { intro HD. apply (DH _ _ hlit hdist hclen cls items w9); auto; try lia.
    - unfold cls. repeat (constructor; [assumption|]). assumption.
    - apply tree_of_iff; [rewrite cl_lens_length; lia|eauto].
    - rewrite firstn_skipn. exact HE.
    - apply tree_of_iff; [lia|eauto]. }
  exists (lsb 5 hlit ++ lsb 5 hdist ++ lsb 4 hclen ++ flat_map (lsb 3) cls ++ w9).
  destruct (match skipn nl lens with [x] => 0 =? x | _ => false end) eqn:ED.
  - apply ok_inj in E. destruct E as [E <-]. injection E as <- <-.
    apply is_single_zero in ED. split.
    { unfold cls. cbn [flat_map]. rewrite <- !app_assoc. reflexivity. }
    exists (firstn nl lens), (skipn nl lens). cbn [fst snd].
    split; [|split; assumption]. apply DH'. now left.
  - assert (NZ : skipn nl lens <> [0]).
    { intro HZ. apply is_single_zero in HZ. congruence. }
    assert (T := dist_tree_of_spec (skipn nl lens) ltac:(lia) NZ).
    apply bind_inv in E. destruct E as (dt' & bx & EDT & E). apply lift_inv in EDT. destruct EDT as [EDT ->].
    rewrite EDT in T.
    apply ok_inj in E. destruct E as [E <-]. injection E as <- <-. split.
    { unfold cls. cbn [flat_map]. rewrite <- !app_assoc. reflexivity. }
    exists (firstn nl lens), (skipn nl lens). cbn [fst snd].
    split; [|split; [assumption|split; assumption]]. apply DH'. tauto.
Qed.

Lemma read_codes_complete k w lt dt bs' : header_trees (lt, dt) w ->
  read_codes (rbl k) (w ++ bs') = (Ok (lt, dt), bs').
Proof.
  intros (ll & dl & HD & ELT & HDT). cbn [fst snd] in *.
  destruct HD as [hlit hdist hclen cls items ws H1 H2 H3 HC FC CC HLL HDL HE HB CL DO].
  assert (RP : forall n v rest, n <= 16 -> v < 2 ^ n -> read_part (rbl k) n (lsb (N.to_nat n) v ++ rest) = (Ok v, rest)).
  { intros n v rest0 Hn Hv. apply pspec_read_part; [assumption|]. eauto. }
  destruct cls as [|a0 [|a1 [|a2 [|a3 vs]]]]; cbn [List.length] in HC; try lia.
  inversion FC as [|? ? F0 FC0]; subst. inversion FC0 as [|? ? F1 FC1]; subst. inversion FC1 as [|? ? F2 FC2]; subst.
  inversion FC2 as [|? ? F3 FC3]; subst. clear FC0 FC1 FC2.
  cbn [flat_map]. rewrite <- !app_assoc.
  assert (P5 : 2 ^ 5 = 32) by reflexivity. assert (P4 : 2 ^ 4 = 16) by reflexivity. assert (P3 : 2 ^ 3 = 8) by reflexivity.
  unfold read_codes.
  rewrite (bind_ok _ _ _ _ _ (RP 5 hlit _ ltac:(lia) ltac:(lia))).
  rewrite (bind_ok _ _ _ _ _ (RP 5 hdist _ ltac:(lia) ltac:(lia))).
  rewrite (bind_ok _ _ _ _ _ (RP 4 hclen _ ltac:(lia) ltac:(lia))).
  rewrite (bind_ok _ _ _ _ _ (RP 3 a0 _ ltac:(lia) ltac:(lia))).
  erewrite bind_ok; [|apply lift_ok; apply set_idx_ok; cbn [List.length repeat]; lia].
  rewrite (bind_ok _ _ _ _ _ (RP 3 a1 _ ltac:(lia) ltac:(lia))).
  erewrite bind_ok; [|apply lift_ok; apply set_idx_ok; rewrite ?upd_length; cbn [List.length repeat]; lia].
  rewrite (bind_ok _ _ _ _ _ (RP 3 a2 _ ltac:(lia) ltac:(lia))).
  erewrite bind_ok; [|apply lift_ok; apply set_idx_ok; rewrite ?upd_length; cbn [List.length repeat]; lia].
  rewrite (bind_ok _ _ _ _ _ (RP 3 a3 _ ltac:(lia) ltac:(lia))).
  erewrite bind_ok; [|apply lift_ok; apply set_idx_ok; rewrite ?upd_length; cbn [List.length repeat]; lia].
  rewrite !N.mod_small by lia.
  fold (cl_head a0 a1 a2 a3).
  replace (N.to_nat (hclen + 4) - 4)%nat with (N.to_nat hclen) by lia.
  assert (R8 : read_cl_loop (rbl k) (seq 0 (N.to_nat hclen)) (cl_head a0 a1 a2 a3) (flat_map (lsb 3) vs ++ ws ++ bs')
               = (Ok (cl_lens (a0 :: a1 :: a2 :: a3 :: vs)), ws ++ bs')).
  { apply pspec_cl_loop; [lia|reflexivity|]. exists (flat_map (lsb 3) vs). split; [reflexivity|].
    exists vs. split; [lia|]. split; [assumption|]. split; [reflexivity|]. symmetry. apply cl_head_put. lia. }
  rewrite (bind_ok _ _ _ _ _ R8). clear R8.
  remember (a0 :: a1 :: a2 :: a3 :: vs) as cls eqn:Ecls.
  assert (HT := CC). apply tree_of_iff in HT; [|rewrite cl_lens_length; lia]. destruct HT as (ct & ECT).
  erewrite bind_ok; [|apply lift_ok; exact ECT].
  replace (N.to_nat (hlit + 257)) with (List.length ll) by lia.
  replace (N.to_nat (hdist + 1)) with (List.length dl) by lia.
  assert (R9 : read_lens_loop (rbl k) (2 * (List.length ll + List.length dl) + 1) ct (List.length ll + List.length dl)
                 0 None 0 (repeat 0 (List.length ll + List.length dl)) (ws ++ bs')
               = (Ok (0, ll ++ dl), bs')).
  { apply (read_lens_start k (cl_lens cls)).
    - split; [assumption|rewrite cl_lens_length; lia].
    - apply cl_lens_length.
    - lia.
    - exists ws, items. split; [reflexivity|]. split; [assumption|]. split; [assumption|]. apply app_length. }
  rewrite (bind_ok _ _ _ _ _ R9). clear R9. cbv beta iota.
  erewrite bind_ok; [|rewrite N.eqb_refl; reflexivity].
  rewrite firstn_app, skipn_app, Nat.sub_diag. cbn [firstn skipn]. rewrite app_nil_r, firstn_all, skipn_all. cbn [app].
  erewrite bind_ok; [|apply lift_ok; exact ELT].
  destruct dt as [t|].
  - destruct HDT as [NZ EDT].
    destruct (match dl with [x] => 0 =? x | _ => false end) eqn:ED; [apply is_single_zero in ED; contradiction|].
    erewrite bind_ok; [|apply lift_ok; exact EDT]. reflexivity.
  - subst dl. reflexivity.
Qed.

Lemma read_codes_spec k : pspec (read_codes (rbl k)) header_trees.
Proof.
  intros bs [lt dt] bs'. split.
  - apply read_codes_sound.
  - intros (w & -> & H). now apply read_codes_complete.
Qed.

Lemma header_tables lt dt w : header_trees (lt, dt) w ->
  exists ll dl, dyn_header ll dl w /\ tree_of ll lt /\ (257 <= List.length ll <= 288)%nat /\ dist_table dl dt.
Proof.
  intros (ll & dl & HD & ELT & HDT). cbn [fst snd] in *. exists ll, dl. split; [assumption|].
  destruct HD as [hlit hdist hclen cls items ws H1 H2 H3 HC FC CC HLL HDL HE HB CL DO].
  split; [split; [assumption|lia]|]. split; [lia|].
  destruct dt as [t|]; cbn.
  - destruct HDT as [NZ EDT]. assert (T := dist_tree_of_spec dl ltac:(lia) NZ). rewrite EDT in T. tauto.
  - subst dl. intro s. unfold rfc_code. destruct (N.to_nat s) as [|[|n]]; reflexivity.
Qed.

(** Conversely any announced pair of tables is built. *)
Lemma header_build ll dl w : dyn_header ll dl w -> exists p, header_trees p w /\ tree_new ll = Ok (fst p) /\
  match snd p with None => dl = [0] | Some t => dl <> [0] /\ dist_tree_of dl = Ok t end.
Proof.
  intro HD. assert (HD' := HD).
  destruct HD as [hlit hdist hclen cls items ws H1 H2 H3 HC FC CC HLL HDL HE HB CL DO].
  assert (HT := CL). apply tree_of_iff in HT; [|lia]. destruct HT as (lt & ELT).
  destruct (list_eq_dec N.eq_dec dl [0]) as [EZ|NZ].
  - exists (lt, None). split; [exists ll, dl; auto|auto].
  - assert (T := dist_tree_of_spec dl ltac:(lia) NZ).
    destruct (dist_tree_of dl) as [t| | |] eqn:EDT; try tauto.
    exists (lt, Some t). cbn [fst snd]. split; [exists ll, dl; cbn [fst snd]; auto|auto].
Qed.

(** ** Bodies *)
Lemma table_row_sym val sym extra e : table_row distance_table val sym extra e -> sym <= 30.
Proof. intro H. apply table_row_distance in H. lia. Qed.

Lemma Ref_new_ok d run : 1 <= d <= 32768 -> 3 <= run <= 258 -> Ref_new d run = Ok (mkRef d (run - 3)).
Proof.
  intros H1 H2. unfold Ref_new.
  replace (3 <=? run) with true by (symmetry; apply N.leb_le; lia).
  replace (run <=? 258) with true by (symmetry; apply N.leb_le; lia).
  replace (1 <=? d) with true by (symmetry; apply N.leb_le; lia).
  replace (d <=? 32768) with true by (symmetry; apply N.leb_le; lia).
  rewrite N.mod_small by lia. reflexivity.
Qed.

Section Body.
  Context (k : eofk) (ll dl : list N) (lt : code_tree) (dt : option code_tree).
  Hypothesis HLT : tree_of ll lt.
  Hypothesis HDT : dist_table dl dt.

  Definition read_dist : M (list bool) N :=
    match dt with
    | Some dist_code => decode_symbol (rbl k) dist_code
    | None => fail "length symbol encountered but no table"
    end.

  Lemma read_dist_ok bs s bs' : s <= 30 ->
    read_dist bs = (Ok s, bs') <-> exists w, bs = w ++ bs' /\ rfc_code dl s = Some w.
  Proof.
    intro Hs. unfold read_dist. unfold dist_table in HDT. destruct dt as [t|].
    - destruct HDT as (lens' & TO & HL & HC).
      rewrite (decode_symbol_spec k lens' t) by assumption. now rewrite HC.
    - split; [discriminate|]. intros (w & _ & H). rewrite HDT in H. discriminate.
  Qed.

  Lemma scan_sound fuel : forall bs cs bs', scan_loop (rbl k) fuel lt dt bs = (Ok cs, bs') ->
    exists w, bs = w ++ bs' /\ body_bits ll dl cs w /\ Forall code_ok cs.
  Proof.
    induction fuel as [|fuel IH]; intros bs cs bs' E; [discriminate|].
    cbn [scan_loop] in E. fold read_dist in E.
    unfold bind at 1 in E. destruct (decode_symbol (rbl k) lt bs) as [o bs1] eqn:ED. destruct o as [sym| | |]; try discriminate.
    apply (decode_symbol_spec k ll lt) in ED; [|assumption]. destruct ED as (w1 & -> & HC).
    destruct (N.eqb_spec sym 256) as [->|N256].
    { unfold ret in E. apply ok_inj in E. destruct E as [<- <-]. exists w1. split; [reflexivity|].
      split; [now constructor|constructor]. }
    destruct (N.ltb_spec sym 256) as [L|L].
    { unfold bind at 1 in E. destruct (scan_loop (rbl k) fuel lt dt bs1) as [o bs2] eqn:EM. destruct o as [more| | |]; try discriminate.
      unfold ret in E. apply ok_inj in E. destruct E as [<- <-].
      destruct (IH _ _ _ EM) as (w2 & -> & HB & HF). exists (w1 ++ w2). rewrite app_assoc. split; [reflexivity|].
      rewrite N.mod_small by assumption. split; [|constructor; [exact L|exact HF]].
      constructor; [now constructor|assumption]. }
    unfold bind at 1 in E. destruct (decode_run_length (rbl k) sym bs1) as [o bs2] eqn:ER. destruct o as [run| | |]; try discriminate.
    apply pspec_run_length in ER. destruct ER as (w2 & -> & lextra & le & TL & ->).
    unfold bind at 1 in E. destruct (read_dist bs2) as [o bs3] eqn:EDS. destruct o as [dsym| | |]; try discriminate.
    unfold bind at 1 in E. destruct (decode_distance (rbl k) dsym bs3) as [o bs4] eqn:EDD. destruct o as [d| | |]; try discriminate.
    apply pspec_distance in EDD. destruct EDD as (w4 & -> & dextra & de & TD & ->).
    apply read_dist_ok in EDS; [|now apply table_row_sym in TD]. destruct EDS as (w3 & -> & HDC).
    assert (BL := table_row_length _ _ _ _ TL). assert (BD := table_row_distance _ _ _ _ TD).
    unfold bind at 1 in E. destruct ((1 <=? d) && (d <=? 32786)) ; [|discriminate]. cbn [ensure] in E. unfold ret at 1 in E.
    unfold bind at 1 in E. unfold lift at 1 in E. rewrite Ref_new_ok in E by lia.
    unfold bind at 1 in E. destruct (scan_loop (rbl k) fuel lt dt bs4) as [o bs5] eqn:EM. destruct o as [more| | |]; try discriminate.
    unfold ret in E. apply ok_inj in E. destruct E as [<- <-].
    destruct (IH _ _ _ EM) as (w5 & -> & HB & HF).
    exists ((w1 ++ lsb (N.to_nat lextra) le ++ w3 ++ lsb (N.to_nat dextra) de) ++ w5).
    split; [rewrite <- !app_assoc; reflexivity|]. split.
    - constructor; [|assumption]. apply (CB_reference ll dl (mkRef d (run - 3)) sym lextra le w1 dsym dextra de w3); auto.
      unfold ref_len. cbn [r_run_minus_3]. replace (run - 3 + 3) with run by lia. exact TL.
    - constructor; [|assumption]. unfold code_ok, ref_ok. cbn [r_dist r_run_minus_3]. lia.
  Qed.

  Lemma code_bits_nonempty c w : code_bits ll dl c w -> (1 <= List.length w)%nat.
  Proof.
    intro H. inversion H; subst.
    - now apply rfc_code_nonempty in H1.
    - apply rfc_code_nonempty in H1. rewrite app_length. lia.
  Qed.

  Lemma scan_complete cs w : body_bits ll dl cs w -> forall fuel bs', (List.length w <= fuel)%nat ->
    scan_loop (rbl k) fuel lt dt (w ++ bs') = (Ok cs, bs').
  Proof.
    assert (DEC : forall s w rest, rfc_code ll s = Some w -> decode_symbol (rbl k) lt (w ++ rest) = (Ok s, rest)).
    { intros s w0 rest0 HC. apply (decode_symbol_spec k ll lt); eauto. }
    induction 1 as [w HC|c cs w ws HCB HBB IH]; intros fuel bs' HF.
    - assert (NE := rfc_code_nonempty _ _ _ HC). destruct fuel as [|fuel]; [lia|].
      cbn [scan_loop]. unfold bind at 1. rewrite (DEC 256 w) by assumption. reflexivity.
    - assert (NE := code_bits_nonempty _ _ HCB). rewrite app_length in HF. destruct fuel as [|fuel]; [lia|].
      specialize (IH fuel bs' ltac:(lia)). cbn [scan_loop]. fold read_dist.
      inversion HCB as [b w0 Hb HC|r lsym lextra le lw dsym dextra de dw TL HL TD HD]; subst.
      + rewrite <- app_assoc. unfold bind at 1. rewrite (DEC b w) by assumption.
        replace (b =? 256) with false by (symmetry; apply N.eqb_neq; lia).
        replace (b <? 256) with true by (symmetry; apply N.ltb_lt; lia).
        unfold bind at 1. rewrite IH. unfold ret. rewrite N.mod_small by assumption. reflexivity.
      + assert (BL := table_row_length _ _ _ _ TL). assert (BD := table_row_distance _ _ _ _ TD).
        rewrite <- !app_assoc. unfold bind at 1. rewrite (DEC lsym lw) by assumption.
        replace (lsym =? 256) with false by (symmetry; apply N.eqb_neq; lia).
        replace (lsym <? 256) with false by (symmetry; apply N.ltb_ge; lia).
        unfold bind at 1.
        assert (ER : decode_run_length (rbl k) lsym (lsb (N.to_nat lextra) le ++ dw ++ lsb (N.to_nat dextra) de ++ ws ++ bs')
                     = (Ok (ref_len r), dw ++ lsb (N.to_nat dextra) de ++ ws ++ bs')).
        { apply pspec_run_length. eauto 6. }
        rewrite ER. clear ER. unfold bind at 1.
        assert (ED : read_dist (dw ++ lsb (N.to_nat dextra) de ++ ws ++ bs') = (Ok dsym, lsb (N.to_nat dextra) de ++ ws ++ bs')).
        { apply read_dist_ok; [lia|]. eauto. }
        rewrite ED. clear ED. unfold bind at 1.
        assert (ER : decode_distance (rbl k) dsym (lsb (N.to_nat dextra) de ++ ws ++ bs') = (Ok (r_dist r), ws ++ bs')).
        { apply pspec_distance. eauto 6. }
        rewrite ER. clear ER. unfold bind at 1.
        replace (1 <=? r_dist r) with true by (symmetry; apply N.leb_le; lia).
        replace (r_dist r <=? 32786) with true by (symmetry; apply N.leb_le; lia). cbn [andb ensure]. unfold ret at 1.
        unfold bind at 1, lift at 1. rewrite Ref_new_ok by lia. unfold bind at 1. rewrite IH. unfold ret.
        destruct r as [d m]. unfold ref_len. cbn [r_dist r_run_minus_3]. replace (m + 3 - 3) with m by lia. reflexivity.
  Qed.

  Lemma body_codes_ok cs w : body_bits ll dl cs w -> Forall code_ok cs.
  Proof.
    intro H. assert (E := scan_complete _ _ H (List.length w) [] (le_n _)).
    apply scan_sound in E. destruct E as (w' & _ & _ & HF). exact HF.
  Qed.
End Body.

(** ** Fixed tables *)
Lemma fixed_length_tree : exists t, FIXED_LENGTH_TREE = Ok t /\ tree_of fixed_ll t.
Proof.
  assert (E : fixed_length_lens = fixed_ll) by reflexivity.
  assert (C : complete fixed_ll) by (split; [apply Nat.leb_le; vm_compute; reflexivity|vm_compute; reflexivity]).
  assert (L : N.of_nat (List.length fixed_ll) <= 65536) by (vm_compute; discriminate).
  assert (C' := C). apply tree_of_iff in C'; [|exact L]. destruct C' as (t & ET).
  exists t. unfold FIXED_LENGTH_TREE. rewrite E, ET. split; [reflexivity|]. split; assumption.
Qed.

Lemma fixed_distance_tree : exists t, FIXED_DISTANCE_TREE = Ok t /\ dist_table fixed_dl (Some t) /\ tree_of fixed_dl t.
Proof.
  assert (E : repeat 5 32 = fixed_dl) by reflexivity.
  assert (C : complete fixed_dl) by (split; [apply Nat.leb_le; vm_compute; reflexivity|vm_compute; reflexivity]).
  assert (L : N.of_nat (List.length fixed_dl) <= 65536) by (vm_compute; discriminate).
  assert (C' := C). apply tree_of_iff in C'; [|exact L]. destruct C' as (t & ET).
  exists t. unfold FIXED_DISTANCE_TREE. rewrite E, ET. split; [reflexivity|].
  split; [|split; assumption]. exists fixed_dl. split; [split; assumption|]. split; [apply Nat.leb_le; vm_compute; reflexivity|auto].
Qed.
