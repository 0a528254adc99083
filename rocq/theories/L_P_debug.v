(** Proof of C67: the debug listings. *)
From Verif Require Import Base M_bit M_lib M_code_tree M_all_refs M_debug Spec Clients Clients_debug
  L_bits L_bitprops L_tree L_search.
From Coq Require Import Sorting.Sorted.
From Coq Require Import ZArith ZifyBool ZifyNat ZifyN.
Ltac Zify.zify_post_hook ::= Z.div_mod_to_equations.
Local Open Scope N_scope.
Local Open Scope model_scope.

(** ** Order *)
Lemma sorted_app {A} (R : A -> A -> Prop) a b : StronglySorted R a -> StronglySorted R b ->
  (forall x y, In x a -> In y b -> R x y) -> StronglySorted R (a ++ b).
Proof.
  intros Ha Hb H. induction Ha as [|x a Ha IH Hx]; [exact Hb|]. cbn [app]. constructor.
  - apply IH. intros y z Hy Hz. apply H; [now right|exact Hz].
  - apply Forall_app. split; [exact Hx|]. apply Forall_forall. intros y Hy. apply H; [now left|exact Hy].
Qed.

Lemma sorted_map {A B} (R : A -> A -> Prop) (Q : B -> B -> Prop) (f : A -> B) l :
  (forall x y, R x y -> Q (f x) (f y)) -> StronglySorted R l -> StronglySorted Q (map f l).
Proof.
  intros H. induction 1 as [|x l Hl IH Hx]; cbn [map]; constructor; [exact IH|].
  apply Forall_forall. intros y Hy. apply in_map_iff in Hy. destruct Hy as (z & <- & Hz). apply H.
  rewrite Forall_forall in Hx. now apply Hx.
Qed.

Lemma sorted_ascending {A} (R : A -> A -> Prop) l : StronglySorted R l -> ascending R l.
Proof.
  intros H l1. revert l H. induction l1 as [|z l1 IH]; intros l H x l2 y l3 E; subst l.
  - apply StronglySorted_inv in H. destruct H as [_ H]. rewrite Forall_forall in H. apply H. apply in_app_iff. right. now left.
  - apply StronglySorted_inv in H. destruct H as [H _]. eapply IH; [exact H|]. reflexivity.
Qed.

(** ** The code tree *)
Lemma node_debug_paths n : forall p, node_debug p n = map (fun q => (p ++ fst q, symbol_line (snd q))) (paths n).
Proof.
  induction n as [s|a IHa b IHb]; intro p; cbn [node_debug paths].
  - cbn [map fst snd]. now rewrite app_nil_r.
  - rewrite IHa, IHb, map_app, !map_map. cbn [fst snd]. f_equal; apply map_ext; intros []; cbn [fst snd]; now rewrite <- app_assoc.
Qed.

Lemma tree_debug_paths t : tree_debug t = map (fun q => (fst q, symbol_line (snd q))) (paths (Internal (ct_left t) (ct_right t))).
Proof. unfold tree_debug. rewrite !node_debug_paths. cbn [paths]. rewrite map_app, !map_map. reflexivity. Qed.

Lemma paths_sorted n : StronglySorted (fun a b => bits_before (fst a) (fst b)) (paths n).
Proof.
  assert (C : forall (b : bool) x y, bits_before x y -> bits_before (b :: x) (b :: y)).
  { intros b x y (c & x' & y' & -> & ->). exists (b :: c), x', y'. auto. }
  induction n as [s|a IHa b IHb]; cbn [paths]; [repeat constructor|]. apply sorted_app.
  - eapply sorted_map; [|exact IHa]. intros x y H. cbn [fst]. now apply C.
  - eapply sorted_map; [|exact IHb]. intros x y H. cbn [fst]. now apply C.
  - intros x y Hx Hy. apply in_map_iff in Hx, Hy. destruct Hx as (x' & <- & _), Hy as (y' & <- & _). cbn [fst].
    exists [], (fst x'), (fst y'). auto.
Qed.

Lemma shows_line s v : shows v s <-> v = symbol_line s.
Proof.
  unfold shows, symbol_line. destruct (N.leb_spec s 255); [|destruct (N.eqb_spec s 256)]; split; intro E; try (subst v; auto 6); intuition (auto; lia).
Qed.

Lemma C67_lemma_tree : forall lens t, N.of_nat (List.length lens) <= 65536 -> tree_new lens = Ok t ->
  ascending (fun a b => bits_before (fst a) (fst b)) (tree_debug t)
  /\ forall code text, In (code, text) (tree_debug t) <-> exists s, rfc_code lens s = Some code /\ shows text s.
Proof.
  intros lens t HL HT. assert (T := tree_new_spec lens HL). rewrite HT in T. destruct T as [_ HP].
  rewrite tree_debug_paths. split.
  - apply sorted_ascending. eapply sorted_map; [|apply paths_sorted]. intros x y H. exact H.
  - intros code text. rewrite HP, in_map_iff. split.
    + intros ((w & s) & E & H). cbn [fst snd] in E. inversion E. subst. exists s. split; [now apply rfc_code_entries|now apply shows_line].
    + intros (s & H & E). apply rfc_code_entries in H. apply shows_line in E. subst text. exists (code, s). auto.
Qed.

(** ** The position table *)
Lemma bm_chain_spec H m k : tables H k m -> forall p fuel vals, (p < k)%nat -> (p < fuel)%nat ->
  bm_chain fuel m p vals = Ok (vals ++ cand H (H p) p).
Proof.
  intros [_ T] p. induction p as [p IH] using lt_wf_ind. intros fuel vals Hp HF. destruct fuel as [|fuel]; [lia|].
  cbn [bm_chain]. unfold get_idx. rewrite (T p Hp). cbn [obind]. destruct (cand H (H p) p) as [|q l] eqn:EC; cbn [hd].
  - cbn [Nat.eqb]. now rewrite app_nil_r.
  - assert (IQ : In q (cand H (H p) p)) by (rewrite EC; now left). apply cand_in in IQ.
    destruct q as [|q]; [lia|]. cbn [Nat.eqb]. rewrite IH by lia. rewrite (proj2 IQ). apply cand_tail in EC. rewrite EC.
    now rewrite <- app_assoc.
Qed.

Lemma rev_cand H h k : rev (cand H h k) = filter (fun q => H q =? h) (seq 1 (k - 1)).
Proof.
  unfold cand. induction (seq 1 (k - 1)) as [|x l IH]; [reflexivity|]. cbn [rev filter]. rewrite filter_app, rev_app_distr, IH. cbn [filter].
  destruct (H x =? h); reflexivity.
Qed.

Definition table_line H k (h : N) : N * list nat := (h, filter (fun q => H q =? h) (seq 1 (k - 1))).
Definition kept (l : N * list nat) : bool := match snd l with [] => false | _ => true end.

Lemma bm_lines_spec H m k : tables H k m -> (k <= List.length (pos_to_pos m))%nat -> forall hs, Forall (fun h => h < HASH_SIZE) hs ->
  bm_lines m hs = Ok (filter kept (map (table_line H k) hs)).
Proof.
  intros T HK. induction hs as [|h hs IH]; intro HS; [reflexivity|]. inversion HS as [|? ? Hh Hhs]; subst. cbn [bm_lines map filter].
  unfold hash_get. apply N.ltb_lt in Hh. rewrite Hh. cbn [obind]. rewrite (proj1 T). unfold kept at 1, table_line at 1. cbn [snd].
  rewrite <- rev_cand. destruct (cand H h k) as [|q l] eqn:EC; cbn [hd Nat.eqb].
  - cbn [rev]. now apply IH.
  - assert (IQ : In q (cand H h k)) by (rewrite EC; now left). apply cand_in in IQ. destruct q as [|q]; [lia|].
    cbn [Nat.eqb]. rewrite (bm_chain_spec _ _ _ T) by lia. rewrite (proj2 IQ). cbn [obind]. rewrite (IH Hhs). cbn [obind].
    assert (EQ := EC). apply cand_tail in EC. rewrite <- EC. cbn [app].
    destruct (rev (S q :: l)) as [|x r] eqn:ER.
    { apply (f_equal (@List.length nat)) in ER. rewrite rev_length in ER. discriminate. }
    rewrite <- ER. unfold table_line at 2. now rewrite <- rev_cand, EQ.
Qed.

Lemma seq_sorted : forall n a, StronglySorted (fun x y => x < y) (map N.of_nat (seq a n)).
Proof.
  induction n as [|n IH]; intro a; cbn [seq map]; constructor; [apply IH|]. apply Forall_forall. intros y Hy.
  apply in_map_iff in Hy. destruct Hy as (z & <- & Hz). apply in_seq in Hz. lia.
Qed.

Lemma sorted_filter {A} (R : A -> A -> Prop) f l : StronglySorted R l -> StronglySorted R (filter f l).
Proof.
  induction 1 as [|x l Hl IH Hx]; cbn [filter]; [constructor|]. destruct (f x); [|exact IH]. constructor; [exact IH|].
  apply Forall_forall. intros y Hy. apply filter_In in Hy. rewrite Forall_forall in Hx. now apply Hx.
Qed.

Lemma hashes_in h : In h (map N.of_nat (seq 0 (N.to_nat HASH_SIZE))) <-> h < HASH_SIZE.
Proof.
  rewrite in_map_iff. split.
  - intros (x & <- & Hx). apply in_seq in Hx. lia.
  - intro Hh. exists (N.to_nat h). rewrite N2Nat.id, in_seq. split; [reflexivity|]. lia.
Qed.

Lemma C67_lemma_table : forall preroll data,
  let w := preroll ++ data in
  exists m lines, from_window preroll data = Ok m /\ bm_debug m = Ok lines
    /\ ascending (fun a b => fst a < fst b) lines
    /\ forall hash positions, In (hash, positions) lines <->
         positions = filter (fun q => hash3 w q =? hash) (seq 1 (List.length w - 3)) /\ positions <> [].
Proof.
  intros preroll data w. destruct (with_sixteen_ok preroll data 0) as (a & E & (_ & T & L) & _). unfold with_sixteen in E.
  destruct (from_window preroll data) as [m| | |] eqn:EM; try discriminate. cbn [obind] in E. injection E as <-. cbn [ar_map] in T, L. fold w in T, L.
  exists m. eexists. split; [reflexivity|]. split; [|split].
  - unfold bm_debug. rewrite (bm_lines_spec _ _ _ T); [reflexivity|lia|]. apply Forall_forall. intros h Hh. now apply hashes_in.
  - apply sorted_ascending, sorted_filter. eapply sorted_map; [|apply seq_sorted]. intros x y Hxy. exact Hxy.
  - intros h ps. replace (List.length w - 3)%nat with (List.length w - 2 - 1)%nat by lia. rewrite filter_In, in_map_iff. split.
    + intros [(h' & EH & _) K]. unfold table_line in EH. injection EH as <- EP. subst ps. split; [reflexivity|]. intro E0.
      unfold kept in K. cbn [snd] in K. rewrite E0 in K. discriminate.
    + intros [-> NE]. split.
      * exists h. split; [reflexivity|]. apply hashes_in. destruct (filter (fun q => hash3 w q =? h) (seq 1 (List.length w - 2 - 1))) as [|q l] eqn:EF; [contradiction|].
        assert (IQ : In q (q :: l)) by now left. rewrite <- EF in IQ. apply filter_In in IQ. destruct IQ as [_ IQ]. apply N.eqb_eq in IQ. subst h.
        rewrite <- hash_at. apply hash_small.
      * unfold kept. cbn [snd]. destruct (filter (fun q => hash3 w q =? h) (seq 1 (List.length w - 2 - 1))); [contradiction|reflexivity].
Qed.

(** ** The bit vector *)
Lemma pp_line_spec bs : forall room i, (i <= List.length bs)%nat ->
  pp_line room (mkIter (bitvec_of bs) i) = Ok (firstn room (skipn i bs), mkIter (bitvec_of bs) (Nat.min (i + room) (List.length bs))).
Proof.
  induction room as [|room IH]; intros i Hi; cbn [pp_line].
  - cbn [firstn]. rewrite Nat.add_0_r, Nat.min_l by assumption. reflexivity.
  - rewrite si_next_spec by assumption. destruct (nth_error bs i) as [b|] eqn:EN.
    + assert (i < List.length bs)%nat by (apply nth_error_Some; congruence). rewrite IH by lia. cbn [obind fst snd].
      rewrite (skipn_nth _ _ _ EN). cbn [firstn]. do 3 f_equal. lia.
    + apply nth_error_None in EN. rewrite skipn_all2 by assumption. rewrite firstn_nil. do 3 f_equal. lia.
Qed.

Lemma pp_lines_spec bs : forall fuel i, (i <= List.length bs)%nat -> (List.length bs - i < fuel)%nat ->
  exists lines, pp_lines fuel (mkIter (bitvec_of bs) i) = Ok lines /\ List.concat lines = skipn i bs
    /\ forall before line after, lines = before ++ line :: after ->
         (1 <= List.length line <= 8)%nat /\ (after <> [] -> List.length line = 8%nat).
Proof.
  induction fuel as [|fuel IH]; intros i Hi HF; [lia|]. cbn [pp_lines]. rewrite pp_line_spec by assumption. cbn [obind fst snd].
  destruct (firstn 8 (skipn i bs)) as [|x l] eqn:EF.
  - exists []. split; [reflexivity|]. split.
    + destruct (skipn i bs); [reflexivity|discriminate].
    + intros [|? ?] line after E; discriminate.
  - assert (LF := firstn_length 8 (skipn i bs)). rewrite EF, skipn_length in LF. cbn [List.length] in LF.
    destruct (IH (Nat.min (i + 8) (List.length bs)) ltac:(lia) ltac:(lia)) as (lines & EL & EC & HL).
    rewrite EL. cbn [obind]. eexists. split; [reflexivity|]. split.
    + cbn [List.concat]. rewrite EC, <- EF. rewrite <- (firstn_skipn 8 (skipn i bs)) at 2. f_equal. rewrite skipn_skipn.
      destruct (Nat.min_spec (i + 8) (List.length bs)) as [[K ->]|[K ->]]; [f_equal; lia|]. rewrite skipn_all, skipn_all2 by lia. reflexivity.
    + intros before line after E. destruct before as [|y before]; cbn [app] in E; injection E as E1 E2.
      * subst line after. cbn [List.length]. split; [lia|]. intro NE. destruct (Nat.le_gt_cases (i + 8) (List.length bs)); [lia|].
        exfalso. rewrite Nat.min_r in EC by lia. rewrite skipn_all in EC. destruct lines as [|l1 lines]; [contradiction|].
        assert (H1 := HL [] l1 lines eq_refl). cbn [List.concat] in EC. apply app_eq_nil in EC. destruct EC as [-> _]. cbn [List.length] in H1. lia.
      * eapply HL. exact E2.
Qed.

Lemma C67_lemma_bits : forall bits v, push_all bits bv_new = Ok v ->
  bv_debug v = Ok (List.length bits, bits)
  /\ exists lines, bv_pretty_print v = Ok lines /\ List.concat lines = bits
     /\ forall before line after, lines = before ++ line :: after ->
          (1 <= List.length line <= 8)%nat /\ (after <> [] -> List.length line = 8%nat).
Proof.
  intros bits v E. rewrite push_all_new in E. injection E as <-. split.
  - unfold bv_debug. rewrite bv_to_list_spec. reflexivity.
  - unfold bv_pretty_print, bv_iter. change (bv_len (bitvec_of bits)) with (List.length bits).
    apply (pp_lines_spec bits (S (List.length bits)) 0); lia.
Qed.
