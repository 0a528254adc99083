(** Proofs of C97: the mean length of the words of a table. *)
From Verif Require Import Base M_bit M_lib M_code_tree M_huffman M_serialise Spec Clients
  L_bits L_writer L_reader L_tree L_huff L_header L_ser L_P_cost.
From Coq Require Import ZArith ZifyBool ZifyNat ZifyN.
Ltac Zify.zify_post_hook ::= Z.div_mod_to_equations.
Local Open Scope N_scope.
Local Open Scope model_scope.

Definition used_lens (lens : list N) : list N := filter (fun l => (1 <=? l) && (l <=? 15)) lens.
Definition cnt (ws : list N) (k : N) : N := N.of_nat (count_occ N.eq_dec ws k).

Lemma kraft_used lens : kraft (used_lens lens) = kraft lens.
Proof.
  unfold kraft, used_lens. induction lens as [|l lens IH]; [reflexivity|]. cbn [filter map fold_right]. destruct (_ && _) eqn:E.
  - cbn [map fold_right]. now rewrite E, IH.
  - rewrite IH. lia.
Qed.

Lemma used_range lens : Forall (fun l => 1 <= l <= 15) (used_lens lens).
Proof. apply Forall_forall. intros l H. apply filter_In in H. lia. Qed.

Lemma cnt_cons x ws k : cnt (x :: ws) k = (if x =? k then 1 else 0) + cnt ws k.
Proof. unfold cnt. cbn [count_occ]. destruct (N.eq_dec x k) as [->|D]; [rewrite N.eqb_refl; lia|]. apply N.eqb_neq in D. rewrite D. lia. Qed.

Lemma by_counts ws : Forall (fun l => 1 <= l <= 15) ws ->
  kraft ws = cnt ws 1 * 16384 + cnt ws 2 * 8192 + cnt ws 3 * 4096 + cnt ws 4 * 2048 + cnt ws 5 * 1024 + cnt ws 6 * 512 + cnt ws 7 * 256
     + cnt ws 8 * 128 + cnt ws 9 * 64 + cnt ws 10 * 32 + cnt ws 11 * 16 + cnt ws 12 * 8 + cnt ws 13 * 4 + cnt ws 14 * 2 + cnt ws 15
  /\ N.of_nat (List.length ws) = cnt ws 1 + cnt ws 2 + cnt ws 3 + cnt ws 4 + cnt ws 5 + cnt ws 6 + cnt ws 7
     + cnt ws 8 + cnt ws 9 + cnt ws 10 + cnt ws 11 + cnt ws 12 + cnt ws 13 + cnt ws 14 + cnt ws 15.
Proof.
  induction 1 as [|x ws HX _ [IK IL]]; [split; reflexivity|]. rewrite !cnt_cons.
  assert (K : kraft (x :: ws) = 2 ^ (15 - x) + kraft ws) by (unfold kraft; cbn [map fold_right]; replace ((1 <=? x) && (x <=? 15)) with true by lia; reflexivity).
  rewrite K, IK. cbn [List.length]. rewrite Nat2N.inj_succ, IL.
  assert (C : In x [1; 2; 3; 4; 5; 6; 7; 8; 9; 10; 11; 12; 13; 14; 15]) by (cbn [In]; lia).
  cbn [In] in C. decompose [or] C; try contradiction; subst x; match goal with |- context [2 ^ ?a] => let v := eval vm_compute in (2 ^ a) in change (2 ^ a) with v end;
    cbn [N.eqb Pos.eqb]; split; lia.
Qed.

(** The inner nodes of a level, after the levels with [cs] leaves. *)
Fixpoint inner (cs : list Z) (i : Z) : Z := match cs with [] => i | c :: cs' => inner cs' (2 * i - c) end.
Fixpoint total (cs : list Z) : Z := match cs with [] => 0 | c :: cs' => c + total cs' end.

Lemma inner_nonneg cs : forall i, Forall (fun c => 0 <= c)%Z cs -> inner cs i = 0%Z -> (0 <= i)%Z.
Proof. induction cs as [|c cs IH]; intros i F E; [cbn in E; lia|]. cbn [inner] in E. assert (X := IH _ (Forall_inv_tail F) E). apply Forall_inv in F. cbv beta in F. lia. Qed.
Lemma total_enough cs : forall i, Forall (fun c => 0 <= c)%Z cs -> inner cs i = 0%Z -> (i <= total cs)%Z.
Proof.
  induction cs as [|c cs IH]; intros i F E; [cbn in *; lia|]. assert (P := inner_nonneg _ _ F E). cbn [inner total] in *.
  assert (X := IH _ (Forall_inv_tail F) E). lia.
Qed.
Lemma total_deep cs : forall i m c, Forall (fun c => 0 <= c)%Z cs -> inner cs i = 0%Z -> nth_error cs m = Some c -> (1 <= c)%Z ->
  (1 <= i /\ i + Z.of_nat m + 1 <= total cs)%Z.
Proof.
  induction cs as [|c0 cs IH]; intros i m c F E EM HC; [destruct m; discriminate|]. cbn [inner total] in *.
  assert (T := total_enough cs _ (Forall_inv_tail F) E). assert (P := inner_nonneg cs _ (Forall_inv_tail F) E). assert (F0 := Forall_inv F). cbv beta in F0.
  destruct m as [|m].
  - injection EM as ->. lia.
  - cbn [nth_error] in EM. destruct (IH _ m c (Forall_inv_tail F) E EM HC). lia.
Qed.

Definition level_counts (ws : list N) : list Z := map (fun k => Z.of_N (cnt ws k)) [1; 2; 3; 4; 5; 6; 7; 8; 9; 10; 11; 12; 13; 14; 15].

Lemma words_many ws l : Forall (fun l => 1 <= l <= 15) ws -> kraft ws = 2 ^ 15 -> In l ws -> l + 1 < N.of_nat (List.length ws) + 1.
Proof.
  intros F K HI. destruct (by_counts ws F) as [EK EL]. rewrite K in EK. change (2 ^ 15) with 32768 in EK.
  assert (CL : 1 <= cnt ws l) by (unfold cnt; apply (count_occ_In N.eq_dec) in HI; lia).
  rewrite Forall_forall in F. assert (R := F l HI). cbv beta in R.
  destruct (total_deep (level_counts ws) 1 (N.to_nat (l - 1)) (Z.of_N (cnt ws l))) as [_ T].
  - apply Forall_map. apply Forall_forall. intros. apply N2Z.is_nonneg.
  - unfold level_counts. cbn [map inner]. clear EL CL. lia.
  - unfold level_counts. rewrite nth_error_map. assert (C : In l [1; 2; 3; 4; 5; 6; 7; 8; 9; 10; 11; 12; 13; 14; 15]) by (cbn [In]; lia).
    cbn [In] in C. clear - C. decompose [or] C; try contradiction; subst l; reflexivity.
  - lia.
  - unfold level_counts in T. cbn [map total] in T. clear EK. lia.
Qed.

Lemma sum_app a b : sum_list (a ++ b) = sum_list a + sum_list b.
Proof. unfold sum_list. induction a as [|x a IH]; [reflexivity|]. cbn [app fold_right]. rewrite IH. lia. Qed.

Lemma fold_sum l : forall a, fold_left N.add l a = a + sum_list l.
Proof. unfold sum_list. induction l as [|x l IH]; intro a; cbn [fold_left fold_right]; [lia|]. rewrite IH. lia. Qed.

Lemma somes_app {A} (a b : list (option A)) : somes (a ++ b) = somes a ++ somes b.
Proof. apply flat_map_app. Qed.

(** The words of a table and its lengths. *)
Lemma rfc_len lens s : opt_len (rfc_code lens s)
  = match nth_error lens (N.to_nat s) with Some l => if (1 <=? l) && (l <=? 15) then Some l else None | None => None end.
Proof.
  unfold rfc_code. destruct (nth_error lens (N.to_nat s)) as [l|]; [|reflexivity]. destruct (_ && _); [|reflexivity].
  cbn [opt_len]. unfold msb. rewrite rev_length, lsb_length. f_equal. lia.
Qed.

Lemma somes_lens lens : forall (n : nat) ls, (List.length lens <= n)%nat -> List.length ls = n ->
  (forall s, (s < n)%nat -> nth_error ls s = Some (match nth_error lens s with Some l => if (1 <=? l) && (l <=? 15) then Some l else None | None => None end)) ->
  somes ls = used_lens lens.
Proof.
  induction lens as [|l lens IH]; intros n ls HN HL H.
  - cbn [used_lens filter]. subst n. induction ls as [|o ls IH2]; [reflexivity|]. assert (H0 := H O ltac:(cbn; lia)). cbn [nth_error] in H0. injection H0 as ->. cbn [somes flat_map app].
    apply IH2; [cbn; lia|]. intros s Hs. specialize (H (S s) ltac:(cbn [List.length]; lia)). cbn [nth_error] in H. rewrite H. destruct s; reflexivity.
  - destruct n as [|n]; [cbn in HN; lia|]. destruct ls as [|o ls]; [discriminate|]. assert (H0 := H O ltac:(lia)). cbn [nth_error] in H0. injection H0 as ->.
    assert (X : somes ls = used_lens lens).
    { apply (IH n); [cbn in HN; lia|cbn in HL; lia|]. intros s Hs. exact (H (S s) ltac:(lia)). }
    unfold used_lens in *. cbn [filter]. cbn [somes flat_map]. fold (somes ls). rewrite X. destruct (_ && _); reflexivity.
Qed.

Lemma lens_of_tree lens t : tree_new lens = Ok t -> (List.length lens <= 288)%nat -> exists ls, tree_to_lengths t = Ok ls /\ somes ls = used_lens lens.
Proof.
  intros HT HL. destruct (tree_invert_spec lens t HT HL) as (inv & E1 & E2 & E3). assert (EL : exists ls, tree_to_lengths t = Ok ls) by (unfold tree_to_lengths; rewrite E1; eexists; reflexivity).
  destruct EL as [ls EL]. exists ls. split; [exact EL|]. apply (somes_lens lens 288); [exact HL| |].
  - unfold tree_to_lengths in EL. rewrite E1 in EL. cbn [obind] in EL. injection EL as <-. now rewrite map_length.
  - intros s Hs. assert (X := lengths_lookup lens t ls HT HL EL (N.of_nat s) ltac:(lia)). rewrite rfc_len, Nat2N.id in X. unfold get_idx in X.
    destruct (nth_error ls s); [now injection X as ->|discriminate].
Qed.

Lemma sum_le ws m : Forall (fun w => w <= m) ws -> sum_list ws <= N.of_nat (List.length ws) * m.
Proof. unfold sum_list. induction 1 as [|x ws HX _ IH]; cbn [fold_right List.length]; [lia|]. nia. Qed.
Lemma sum_ge ws m : Forall (fun w => m <= w) ws -> N.of_nat (List.length ws) * m <= sum_list ws.
Proof. unfold sum_list. induction 1 as [|x ws HX _ IH]; cbn [fold_right List.length]; [lia|]. nia. Qed.

Lemma some_word (P : N -> bool) ws : (exists w, In w ws /\ P w = true) \/ Forall (fun w => P w = false) ws.
Proof.
  induction ws as [|x ws [(w & HI & HP)|IH]]; [right; constructor|left; exists w; split; [now right|exact HP]|].
  destruct (P x) eqn:E; [left; exists x; split; [now left|exact E]|right; now constructor].
Qed.

Lemma C97_lemma : forall ll dl lt dt, (List.length ll <= 288)%nat -> (List.length dl <= 288)%nat -> tree_new ll = Ok lt -> tree_new dl = Ok dt ->
  exists ls, Lengths_new lt dt = Ok ls
    /\ let words := filter (fun l => (1 <=? l) && (l <=? 15)) ll in let count := N.of_nat (List.length words) in let mean := ls_mean_literal_len ls in
       mean = sum_list words / (count + 1) + 1
       /\ mean * count <= sum_list words + count /\ sum_list words <= mean * count + count
       /\ (exists w, In w words /\ w <= mean) /\ (exists w, In w words /\ mean <= w).
Proof.
  intros ll dl lt dt HL HD ET ED. destruct (lens_of_tree ll lt ET HL) as (l & EL & SL). destruct (lens_of_tree dl dt ED HD) as (d & EDL & _).
  unfold Lengths_new. rewrite EL. cbn [obind]. rewrite EDL. cbn [obind]. eexists. split; [reflexivity|]. cbv zeta. cbn [ls_mean_literal_len].
  rewrite fold_sum, SL, N.add_0_l. fold (used_lens ll).
  assert (KR : kraft (used_lens ll) = 2 ^ 15). { rewrite kraft_used. assert (T := tree_new_spec ll ltac:(lia)). rewrite ET in T. destruct T as [[_ K] _]. exact K. }
  assert (R := used_range ll). set (ws := used_lens ll) in *. set (n := N.of_nat (List.length ws)). set (s := sum_list ws).
  assert (MANY : forall w, In w ws -> w + 1 <= n) by (intros w HI; assert (X := words_many ws w R KR HI); unfold n; lia).
  assert (NE : exists w, In w ws). { destruct ws as [|w ws']; [discriminate KR|exists w; now left]. }
  assert (N2 : 2 <= n). { destruct NE as [w HI]. assert (X := MANY w HI). rewrite Forall_forall in R. assert (Y := R w HI). cbv beta in Y. lia. }
  assert (S15 : s <= n * 15) by (apply sum_le; rewrite Forall_forall in *; intros w HI; apply R; exact HI).
  assert (SN : s <= n * (n - 1)) by (apply sum_le; apply Forall_forall; intros w HI; assert (X := MANY w HI); lia).
  assert (S1 : n * 1 <= s) by (apply sum_ge; rewrite Forall_forall in *; intros w HI; apply R; exact HI).
  replace (s + (1 + n)) with (s + 1 * (n + 1)) by lia. replace (1 + n) with (n + 1) by lia. rewrite N.div_add by lia.
  set (q := s / (n + 1)). assert (DQ : (n + 1) * q <= s < (n + 1) * (q + 1)) by (unfold q; split; [apply N.mul_div_le; lia|rewrite (N.add_1_r (s / (n + 1))); apply N.mul_succ_div_gt; lia]).
  clearbody q. assert (Q15 : q <= 15) by nia. rewrite N.mod_small by lia. split; [reflexivity|].
  assert (QN : q + 1 <= n) by nia.
  split; [nia|]. split; [nia|]. split.
  - destruct (some_word (fun w => w <=? q + 1) ws) as [(w & HI & HP)|F]; [exists w; split; [exact HI|lia]|exfalso].
    assert (X : n * (q + 2) <= s) by (apply sum_ge; eapply Forall_impl; [|exact F]; intros w HW; cbv beta in *; lia). nia.
  - destruct (some_word (fun w => q + 1 <=? w) ws) as [(w & HI & HP)|F]; [exists w; split; [exact HI|lia]|exfalso].
    assert (X : s <= n * q) by (apply sum_le; eapply Forall_impl; [|exact F]; intros w HW; cbv beta in *; lia). 
    destruct (N.eq_dec q 0) as [->|]; nia.
Qed.
