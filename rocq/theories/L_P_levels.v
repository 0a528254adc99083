(** Proofs of C96: comparing the guesses of two gzip levels. *)
From Verif Require Import Base M_bit M_lib M_all_refs M_technique M_trace Spec Clients Spec_encoder Clients_encoder Clients_exact
  L_bits L_ring L_search L_P_search L_tech L_P_tech L_trace L_strace L_P_trace L_P_encoder L_P_exact L_level.
From Coq Require Import ZArith ZifyBool ZifyNat ZifyN Sorting.Sorted.
Ltac Zify.zify_post_hook ::= Z.div_mod_to_equations.
Local Open Scope N_scope.
Local Open Scope model_scope.

(** ** A wider search *)
Lemma firstn_more {A} n m (l : list A) : (n <= m)%nat -> exists more, firstn m l = firstn n l ++ more.
Proof.
  intro H. exists (skipn n (firstn m l)). rewrite <- (firstn_skipn n (firstn m l)) at 1. f_equal. rewrite firstn_firstn. f_equal. lia.
Qed.
Lemma firstn_app_more {A} n m (l k : list A) : (n <= m)%nat -> exists more, firstn m (l ++ k) = firstn n l ++ more.
Proof.
  intro H. rewrite firstn_app. destruct (firstn_more n m l H) as (x & ->). rewrite <- app_assoc. eauto.
Qed.
Lemma candidates_more w n m runs pos : (n <= m)%nat -> exists more, candidates w m runs pos = candidates w n runs pos ++ more.
Proof.
  intro H. unfold candidates. destruct (firstn_more n m (filter (fun q => (hash3 w q =? hash3 w pos) && negb (hidden runs q)) (rev (seq 1 (pos - 1)))) H) as (x & ->).
  rewrite filter_app. eauto.
Qed.

Lemma first_best_before {A} (f : A -> N) cap l x : first_best f cap l x -> exists b a, l = b ++ x :: a /\ forall y, In y b -> f y < f x.
Proof. intros (b & a & E & [(H1 & H2)|(_ & H2 & _)]); exists b, a; (split; [exact E|]); [|exact H2]. intros y HY. specialize (H2 y HY). lia. Qed.

Lemma split_two {A} : forall (b1 : list A) x a1 b2 y a2, b1 ++ x :: a1 = b2 ++ y :: a2 ->
  (x = y /\ b1 = b2) \/ (exists m, b2 = b1 ++ x :: m) \/ (exists m, b1 = b2 ++ y :: m).
Proof.
  induction b1 as [|z b1 IH]; intros x a1 [|z2 b2] y a2 E; cbn [app] in E; injection E as E1 E2.
  - left. auto.
  - right. left. subst z2. exists b2. reflexivity.
  - right. right. subst z. exists b1. reflexivity.
  - subst z2. destruct (IH _ _ _ _ _ E2) as [(-> & ->)|[(m & ->)|(m & ->)]]; [left; auto|right; left|right; right]; exists m; reflexivity.
Qed.

Lemma first_best_wider {A} (f : A -> N) cap cap' l more x : cap <= cap' -> first_best f cap l x ->
  exists y, first_best f cap' (l ++ more) y /\ (y = x \/ (f x < f y /\ exists b m a, l ++ more = b ++ x :: m ++ y :: a)).
Proof.
  intros HC HX. assert (Y := capped_spec f cap' (l ++ more)). destruct (capped_max_by f cap' (l ++ more)) as [y|].
  2: { destruct HX as (b & a & -> & _). destruct b; discriminate Y. }
  exists y. split; [exact Y|]. destruct Y as (b2 & a2 & E2 & H2). destruct HX as (b1 & a1 & E1 & H1). subst l. rewrite <- app_assoc in *. cbn [app] in *.
  destruct (split_two _ _ _ _ _ _ E2) as [(-> & _)|[(m & ->)|(m & ->)]]; [now left|right|exfalso].
  - split.
    + assert (I : In x (b1 ++ x :: m)) by (apply in_app_iff; right; now left). destruct H2 as [(H2 & H3)|(_ & H3 & _)]; specialize (H3 x I); lia.
    + exists b1, m, a2. rewrite E2, <- app_assoc. reflexivity.
  - assert (I : In y (b2 ++ y :: m)) by (apply in_app_iff; right; now left).
    assert (I2 : In y ((b2 ++ y :: m) ++ x :: a1)) by (apply in_app_iff; now left).
    rewrite <- app_assoc in E2. cbn [app] in E2. apply app_inv_head in E2. injection E2 as E2.
    assert (I3 : In x a2) by (rewrite <- E2; apply in_app_iff; right; now left).
    destruct H1 as [(H1 & H3)|(H1 & H3 & _)].
    + specialize (H3 y I). destruct H2 as [(H2 & _)|(_ & _ & H2)]; [lia|]. specialize (H2 x I3). lia.
    + specialize (H1 y I2). specialize (H3 y I). destruct H2 as [(H2 & _)|(_ & _ & H2)]; [lia|]. specialize (H2 x I3). lia.
Qed.

(** All candidates have a reference. *)
Lemma candidate_refs w limit runs pos : (pos < List.length w)%nat ->
  exists refs, Forall2 (fun q r' => r_dist r' = N.of_nat (pos - q) /\ longest_match w pos (pos - q) (N.to_nat (ref_len r'))) (candidates w (N.to_nat limit) runs pos) refs.
Proof.
  intro HP. destruct (with_sixteen_ok [] w limit) as (refs & EW & _).
  destruct (technique_of (mkConfig true LGreedy Longest (mkWams 0 0 None None)) _ _ _ _ EW) as (R & _). cbn [app t_refs] in R.
  assert (EL : ar_limit refs = limit).
  { unfold with_sixteen in EW. apply obind_ok in EW. destruct EW as (m & _ & EW). injection EW as <-. reflexivity. }
  assert (X := ar_at_ok _ _ pos runs R). destruct (Nat.ltb_spec (pos + 2) (List.length w)) as [HL|HL].
  - destruct X as (l & E & ED & HG). rewrite EL in ED. exists l. now apply forall2_of_map.
  - exists []. rewrite candidates_late by lia. constructor.
Qed.

Lemma desc_filter f (l : list nat) : StronglySorted gt l -> StronglySorted gt (filter f l).
Proof.
  induction 1 as [|a l H IH HF]; cbn [filter]; [constructor|]. destruct (f a); [|exact IH]. constructor; [exact IH|].
  apply Forall_forall. intros x HX. apply filter_In in HX. destruct HX as [HX _]. rewrite Forall_forall in HF. apply HF. exact HX.
Qed.
Lemma desc_firstn : forall (l : list nat) n, StronglySorted gt l -> StronglySorted gt (firstn n l).
Proof.
  induction l as [|a l IH]; intros [|n] H; cbn [firstn]; try constructor; apply StronglySorted_inv in H; destruct H as [H HF]; [now apply IH|].
  apply Forall_forall. intros x HX. rewrite Forall_forall in HF. apply HF. eapply firstn_In. exact HX.
Qed.
Lemma desc_seq : forall n a, StronglySorted gt (rev (seq a n)).
Proof.
  induction n as [|n IH]; intro a; [constructor|]. rewrite seq_S, rev_app_distr. cbn [rev app]. constructor; [apply IH|].
  apply Forall_forall. intros x HX. rewrite <- in_rev, in_seq in HX. lia.
Qed.
Lemma candidates_desc w limit runs pos : StronglySorted gt (candidates w limit runs pos).
Proof. unfold candidates. apply desc_filter, desc_firstn, desc_filter, desc_seq. Qed.
Lemma candidates_below w limit runs pos q : In q (candidates w limit runs pos) -> (1 <= q < pos)%nat.
Proof. unfold candidates. intro H. apply filter_In in H. destruct H as [H _]. apply firstn_In, filter_In in H. destruct H as [H _]. rewrite <- in_rev, in_seq in H. lia. Qed.

Lemma sorted_two : forall (b : list nat) x m y a, StronglySorted gt (b ++ x :: m ++ y :: a) -> (y < x)%nat.
Proof.
  induction b as [|z b IH]; intros x m y a H; cbn [app] in H; apply StronglySorted_inv in H; destruct H as [H HF]; [|eapply IH; exact H].
  rewrite Forall_forall in HF. apply HF. apply in_app_iff. right. now left.
Qed.

Lemma forall2_two {A B} (P : A -> B -> Prop) qs b x m y a : Forall2 P qs (b ++ x :: m ++ y :: a) ->
  exists b' x' m' y' a', qs = b' ++ x' :: m' ++ y' :: a' /\ P x' x /\ P y' y.
Proof.
  intro H. apply Forall2_app_inv_r in H. destruct H as (b' & r1 & _ & H & ->). inversion H as [|x' ? r2 ? PX H2]; subst.
  apply Forall2_app_inv_r in H2. destruct H2 as (m' & r3 & _ & H2 & ->). inversion H2 as [|y' ? a' ? PY _]; subst. exists b', x', m', y', a'. auto.
Qed.

(** The same match, or one that is longer and further away. *)
Lemma match_at_wider w n1 n2 c1 c2 k1 k2 f runs pos r1 : (pos < List.length w)%nat -> n1 <= n2 -> (c1 <= c2)%nat -> k1 <= k2 ->
  match_at w (mkSearch (N.to_nat n1) c1 k1 f) runs pos r1 ->
  exists r2, match_at w (mkSearch (N.to_nat n2) c2 k2 f) runs pos r2 /\ (r2 = r1 \/ (ref_len r1 < ref_len r2 /\ r_dist r1 < r_dist r2)).
Proof.
  intros HP HN HC HK (refs1 & F1 & B1 & T1). cbn [nearest chain nice no_far_threes] in *.
  destruct (candidate_refs w n2 runs pos HP) as (all2 & FA). assert (F2 := firstn_forall2 _ _ _ FA c2).
  destruct (candidates_more w (N.to_nat n1) (N.to_nat n2) runs pos ltac:(lia)) as (m1 & EC).
  destruct (firstn_app_more c1 c2 (candidates w (N.to_nat n1) runs pos) m1 HC) as (m2 & EF). rewrite <- EC in EF.
  assert (EM : exists more, firstn c2 all2 = refs1 ++ more).
  { assert (F3 := F2). rewrite EF in F3. apply Forall2_app_inv_l in F3. destruct F3 as (l1 & l2 & G1 & _ & ->). rewrite (refs_unique _ _ _ _ _ F1 G1). eauto. }
  destruct EM as (more & EM). destruct (first_best_wider ref_len k1 k2 refs1 more r1 HK B1) as (r2 & B2 & HR). rewrite <- EM in B2, HR.
  assert (HR2 : r2 = r1 \/ (ref_len r1 < ref_len r2 /\ r_dist r1 < r_dist r2)).
  { destruct HR as [HR|(HL & b & m & a & E)]; [now left|right]. split; [exact HL|]. rewrite E in F2.
    apply forall2_two in F2. destruct F2 as (b' & x & m' & y & a' & EQ & (D1 & _) & (D2 & _)). rewrite D1, D2.
    assert (S := desc_firstn _ c2 (candidates_desc w (N.to_nat n2) runs pos)). rewrite EQ in S. apply sorted_two in S.
    assert (I : In x (candidates w (N.to_nat n2) runs pos)) by (eapply firstn_In; rewrite EQ; apply in_app_iff; right; now left).
    apply candidates_below in I. lia. }
  exists r2. split; [|exact HR2]. exists (firstn c2 all2). cbn [nearest chain nice no_far_threes]. split; [exact F2|]. split; [exact B2|].
  intro HF. specialize (T1 HF). destruct HR2 as [->|(HL & _)]; [exact T1|]. left. unfold ref_len in *. lia.
Qed.

(** ** Hints one by one *)
Definition single (choice : list (nat * N) -> nat -> list Code -> Prop) : Prop := forall runs pos gs, choice runs pos gs -> exists g, gs = [g].

Lemma traced_one w limit choice : single choice -> forall runs pos codes hints, traced w limit choice runs pos codes hints ->
  forall k c, nth_error codes k = Some c ->
  match nth_error hints k with
  | None => (List.length w <= pos + codes_len (firstn k codes))%nat
  | Some h => (pos + codes_len (firstn k codes) < List.length w)%nat
      /\ exists g, choice (runs ++ long_runs limit pos (firstn k codes)) (pos + codes_len (firstn k codes))%nat [g]
           /\ ((g = c /\ h = Correct) \/ (g <> c /\ h = instead c))
  end.
Proof.
  intros SI runs pos codes hints. induction 1 as [runs pos codes HP|runs pos gs codes hints HP HC HT IH|runs pos right g more x codes hints HP HC NE HT IH]; intros k c EK.
  - destruct k; cbn [nth_error]; lia.
  - destruct (SI _ _ _ HC) as (g & ->). cbn [app List.length repeat] in *. destruct k as [|k]; cbn [nth_error firstn] in *.
    + injection EK as <-. cbn [long_runs]. rewrite app_nil_r. unfold codes_len. cbn [map list_sum fold_right]. rewrite Nat.add_0_r. split; [exact HP|]. exists g. auto.
    + specialize (IH k c EK). assert (EP : (pos + codes_len (g :: firstn k codes) = pos + codes_len [g] + codes_len (firstn k codes))%nat).
      { change (g :: firstn k codes) with ([g] ++ firstn k codes). rewrite codes_len_app. lia. }
      assert (ER : runs ++ long_runs limit pos (g :: firstn k codes) = (runs ++ long_runs limit pos [g]) ++ long_runs limit (pos + codes_len [g]) (firstn k codes)).
      { cbn [long_runs]. rewrite app_nil_r, <- app_assoc. unfold codes_len. cbn [map list_sum fold_right]. now rewrite Nat.add_0_r. }
      rewrite EP, ER. exact IH.
  - destruct (SI _ _ _ HC) as (g' & EG). destruct right as [|z [|z' right]]; cbn [app] in EG; try discriminate EG. injection EG as _ EM. subst more. cbn [app List.length repeat] in *.
    destruct k as [|k]; cbn [nth_error firstn] in *.
    + injection EK as <-. cbn [long_runs]. rewrite app_nil_r. unfold codes_len. cbn [map list_sum fold_right]. rewrite Nat.add_0_r. split; [exact HP|]. exists g. auto.
    + specialize (IH k c EK). assert (EP : (pos + codes_len (x :: firstn k codes) = pos + codes_len [x] + codes_len (firstn k codes))%nat).
      { change (x :: firstn k codes) with ([x] ++ firstn k codes). rewrite codes_len_app. lia. }
      assert (ER : runs ++ long_runs limit pos (x :: firstn k codes) = (runs ++ long_runs limit pos [x]) ++ long_runs limit (pos + codes_len [x]) (firstn k codes)).
      { cbn [long_runs]. rewrite app_nil_r, <- app_assoc. unfold codes_len. cbn [map list_sum fold_right]. now rewrite Nat.add_0_r. }
      rewrite EP, ER. exact IH.
Qed.

Lemma level_single w level : single (level_choice w level).
Proof. intros runs pos gs (good & la & ni & ch & _ & H). inversion H; eauto. Qed.

Lemma instead_not c : instead c <> Correct.
Proof. destruct c; discriminate. Qed.

(** The hint of one code, by what the level chooses there. *)
Lemma level_hint level p d codes hints k c : bytes_ok p -> bytes_ok d -> try_gzip level p d codes = Ok hints -> nth_error codes k = Some c ->
  match nth_error hints k with
  | None => (List.length (p ++ d) <= List.length p + codes_len (firstn k codes))%nat
  | Some h => (List.length p + codes_len (firstn k codes) < List.length (p ++ d))%nat
      /\ exists g, level_choice (p ++ d) level (long_runs (level_limit level) (List.length p) (firstn k codes)) (List.length p + codes_len (firstn k codes))%nat [g]
           /\ ((g = c /\ h = Correct) \/ (g <> c /\ h = instead c))
  end.
Proof.
  intros B1 B2 E EK. unfold try_gzip in E. apply obind_ok in E. destruct E as (config & EC & E). apply tracer_try_trace in E. destruct E as (refs & EW & ET).
  apply (level_traced level config p d refs codes hints EC B1 B2 EW) in ET. exact (traced_one _ _ _ (level_single _ level) _ _ _ _ ET k c EK).
Qed.

(** ** Levels *)
Definition narrower (l1 l2 : N) : Prop := (4 <= l1 /\ l1 <= l2 /\ l2 <= 9) \/ (1 <= l1 /\ l1 <= l2 /\ l2 <= 3).

Lemma level_wider w l1 l2 runs pos r1 : (pos < List.length w)%nat -> narrower l1 l2 ->
  level_choice w l1 runs pos [Reference r1] ->
  exists r2, level_choice w l2 runs pos [Reference r2] /\ (r2 = r1 \/ (ref_len r1 < ref_len r2 /\ r_dist r1 < r_dist r2)).
Proof.
  intros HP HN (g1 & z1 & n1 & c1 & E1 & H1). inversion H1 as [r HM E|]; subst.
  assert (HL : exists g2 z2 n2 c2, nth_error gzip_levels (N.to_nat (l2 - 1)) = Some (g2, z2, n2, c2)
    /\ (if l1 <? 4 then z1 else 65535) <= (if l2 <? 4 then z2 else 65535) /\ (N.to_nat c1 <= N.to_nat c2)%nat /\ n1 <= n2 /\ (4 <=? l1) = (4 <=? l2)).
  { clear H1 HM HP.
    assert (X1 : l1 = 1 \/ l1 = 2 \/ l1 = 3 \/ l1 = 4 \/ l1 = 5 \/ l1 = 6 \/ l1 = 7 \/ l1 = 8 \/ l1 = 9) by (unfold narrower in HN; lia).
    assert (X2 : l2 = 1 \/ l2 = 2 \/ l2 = 3 \/ l2 = 4 \/ l2 = 5 \/ l2 = 6 \/ l2 = 7 \/ l2 = 8 \/ l2 = 9) by (unfold narrower in HN; lia).
    unfold narrower in HN.
    destruct X1 as [X1|[X1|[X1|[X1|[X1|[X1|[X1|[X1|X1]]]]]]]]; subst l1; destruct X2 as [X2|[X2|[X2|[X2|[X2|[X2|[X2|[X2|X2]]]]]]]]; subst l2; try (exfalso; lia);
      vm_compute in E1; injection E1 as <- <- <- <-; do 4 eexists; (split; [vm_compute; reflexivity|]); (split; [apply N.leb_le; vm_compute; reflexivity|]); (split; [lia|]); (split; [lia|reflexivity]). }
  destruct HL as (g2 & z2 & n2 & c2 & E2 & A1 & A2 & A3 & A4). rewrite A4 in HM.
  destruct (match_at_wider _ _ _ _ _ _ _ _ _ _ _ HP A1 A2 A3 HM) as (r2 & HM2 & HR). exists r2. split; [|exact HR].
  exists g2, z2, n2, c2. split; [exact E2|]. now apply greedy_match.
Qed.

Lemma level_fun w level runs pos a b : level_choice w level runs pos [a] -> level_choice w level runs pos [b] -> a = b.
Proof.
  intros (g & z & n & c & E & H) (g' & z' & n' & c' & E' & H'). rewrite E in E'. injection E' as <- <- <- <-.
  inversion H as [r M|x M X]; inversion H' as [r' M'|x' M' X']; subst.
  - f_equal. eapply match_at_unique; eassumption.
  - exfalso. exact (M' _ M).
  - exfalso. exact (M _ M').
  - congruence.
Qed.

(** Where the history hides nothing, or at the high levels. *)
Lemma no_long_runs limit : forall codes pos, (match limit with None => True | Some l => forall r, In (Reference r) codes -> ref_len r <= l end) -> long_runs limit pos codes = [].
Proof.
  induction codes as [|c codes IH]; intros pos H; cbn [long_runs]; [reflexivity|].
  rewrite IH by (destruct limit; [intros r HR; apply H; now right|exact I]). destruct c as [b|r], limit as [l|]; try reflexivity.
  specialize (H r (or_introl eq_refl)). destruct (N.ltb_spec l (ref_len r)); [lia|reflexivity].
Qed.

Definition comparable (l1 l2 : N) (before : list Code) : Prop :=
  (4 <= l1 /\ l1 <= l2 /\ l2 <= 9) \/ (1 <= l1 /\ l1 <= l2 /\ l2 <= 3 /\ forall r, In (Reference r) before -> ref_len r <= 4).

Lemma comparable_runs l1 l2 before pos : comparable l1 l2 before -> narrower l1 l2 /\ long_runs (level_limit l1) pos before = [] /\ long_runs (level_limit l2) pos before = [].
Proof.
  intros [(H1 & H2 & H3)|(H1 & H2 & H3 & H4)]; unfold narrower.
  - split; [left; auto|]. assert (X : forall l, 4 <= l -> level_limit l = None).
    { intros l HL. unfold level_limit. destruct (nth_error _ _) as [[[[? ?] ?] ?]|]; [|reflexivity]. destruct (N.ltb_spec l 4); [lia|reflexivity]. }
    rewrite !X by lia. split; now apply no_long_runs.
  - split; [right; auto|]. assert (X : forall l, 1 <= l <= 3 -> long_runs (level_limit l) pos before = []).
    { intros l HL. apply no_long_runs. assert (Y : l = 1 \/ l = 2 \/ l = 3) by lia. destruct Y as [Y|[Y|Y]]; subst l; change (level_limit 1) with (Some 4); change (level_limit 2) with (Some 5); change (level_limit 3) with (Some 6);
      intros r HR; specialize (H4 r HR); lia. }
    split; apply X; lia.
Qed.

Lemma hint_literal l1 l2 p d codes h1 h2 k b : comparable l1 l2 (firstn k codes) -> bytes_ok p -> bytes_ok d ->
  try_gzip l1 p d codes = Ok h1 -> try_gzip l2 p d codes = Ok h2 -> nth_error codes k = Some (Literal b) ->
  nth_error h2 k = Some Correct -> nth_error h1 k = Some Correct.
Proof.
  intros HC B1 B2 E1 E2 EK EH. destruct (comparable_runs l1 l2 _ (List.length p) HC) as (HN & R1 & R2).
  assert (X1 := level_hint l1 p d codes h1 k _ B1 B2 E1 EK). assert (X2 := level_hint l2 p d codes h2 k _ B1 B2 E2 EK). rewrite EH in X2.
  destruct X2 as (HP & g2 & C2 & D2). destruct (nth_error h1 k) as [h|]; [|lia]. destruct X1 as (_ & g1 & C1 & D1).
  destruct D2 as [(-> & _)|(_ & D2)]; [|exfalso; now apply (instead_not (Literal b))]. rewrite R1 in C1. rewrite R2 in C2.
  destruct D1 as [(_ & ->)|(NE & ->)]; [reflexivity|]. exfalso. destruct g1 as [b1|r1].
  - apply NE. destruct C1 as (? & ? & ? & ? & _ & C1), C2 as (? & ? & ? & ? & _ & C2). inversion C1; inversion C2; subst. congruence.
  - destruct (level_wider _ l1 l2 _ _ r1 HP HN C1) as (r2 & C3 & _). assert (Z := level_fun _ _ _ _ _ _ C2 C3). discriminate Z.
Qed.

Lemma hint_match l1 l2 l3 p d codes h1 h2 h3 k r : comparable l1 l2 (firstn k codes) -> comparable l2 l3 (firstn k codes) -> bytes_ok p -> bytes_ok d ->
  try_gzip l1 p d codes = Ok h1 -> try_gzip l2 p d codes = Ok h2 -> try_gzip l3 p d codes = Ok h3 -> nth_error codes k = Some (Reference r) ->
  nth_error h1 k = Some Correct -> nth_error h3 k = Some Correct -> nth_error h2 k = Some Correct.
Proof.
  intros HC HC' B1 B2 E1 E2 E3 EK EH1 EH3. destruct (comparable_runs l1 l2 _ (List.length p) HC) as (HN & R1 & R2). destruct (comparable_runs l2 l3 _ (List.length p) HC') as (HN' & _ & R3).
  assert (X1 := level_hint l1 p d codes h1 k _ B1 B2 E1 EK). assert (X2 := level_hint l2 p d codes h2 k _ B1 B2 E2 EK). assert (X3 := level_hint l3 p d codes h3 k _ B1 B2 E3 EK).
  rewrite EH1 in X1. rewrite EH3 in X3. destruct X1 as (HP & g1 & C1 & D1), X3 as (_ & g3 & C3 & D3). destruct (nth_error h2 k) as [h|]; [|lia]. destruct X2 as (_ & g2 & C2 & D2).
  destruct D1 as [(-> & _)|(_ & D1)]; [|exfalso; now apply (instead_not (Reference r))]. destruct D3 as [(-> & _)|(_ & D3)]; [|exfalso; now apply (instead_not (Reference r))].
  rewrite R1 in C1. rewrite R2 in C2. rewrite R3 in C3.
  destruct (level_wider _ l1 l2 _ _ r HP HN C1) as (r2 & C2' & HR2). rewrite (level_fun _ _ _ _ _ _ C2 C2') in D2.
  destruct (level_wider _ l2 l3 _ _ r2 HP HN' C2') as (r3 & C3' & HR3). assert (Z := level_fun _ _ _ _ _ _ C3 C3'). injection Z as <-.
  destruct D2 as [(_ & ->)|(NE & _)]; [reflexivity|]. exfalso. apply NE. f_equal. destruct HR2 as [->|(L1 & _)]; [reflexivity|]. destruct HR3 as [->|(L2 & _)]; [reflexivity|lia].
Qed.

(** ** The theorems *)
Lemma C96_lemma_literal : forall l1 l2 preroll data codes hints1 hints2 k b, 4 <= l1 -> l1 <= l2 -> l2 <= 9 -> bytes_ok preroll -> bytes_ok data ->
  try_gzip l1 preroll data codes = Ok hints1 -> try_gzip l2 preroll data codes = Ok hints2 -> nth_error codes k = Some (Literal b) ->
  nth_error hints2 k = Some Correct -> nth_error hints1 k = Some Correct.
Proof. intros l1 l2 p d codes h1 h2 k b A B C. apply hint_literal. left. auto. Qed.

Lemma C96_lemma_match : forall l1 l2 l3 preroll data codes hints1 hints2 hints3 k r, 4 <= l1 -> l1 <= l2 -> l2 <= l3 -> l3 <= 9 -> bytes_ok preroll -> bytes_ok data ->
  try_gzip l1 preroll data codes = Ok hints1 -> try_gzip l2 preroll data codes = Ok hints2 -> try_gzip l3 preroll data codes = Ok hints3 ->
  nth_error codes k = Some (Reference r) ->
  nth_error hints1 k = Some Correct -> nth_error hints3 k = Some Correct -> nth_error hints2 k = Some Correct.
Proof. intros l1 l2 l3 p d codes h1 h2 h3 k r A B C D. apply hint_match; left; lia. Qed.

Lemma C96_lemma_low : forall l1 l2 preroll data codes hints1 hints2 k, 1 <= l1 -> l1 <= l2 -> l2 <= 3 -> bytes_ok preroll -> bytes_ok data ->
  try_gzip l1 preroll data codes = Ok hints1 -> try_gzip l2 preroll data codes = Ok hints2 ->
  (forall r, In (Reference r) (firstn k codes) -> ref_len r <= 4) ->
  (forall b, nth_error codes k = Some (Literal b) -> nth_error hints2 k = Some Correct -> nth_error hints1 k = Some Correct)
  /\ (forall l3 hints3 r, l2 <= l3 -> l3 <= 3 -> try_gzip l3 preroll data codes = Ok hints3 -> nth_error codes k = Some (Reference r) ->
      nth_error hints1 k = Some Correct -> nth_error hints3 k = Some Correct -> nth_error hints2 k = Some Correct).
Proof.
  intros l1 l2 p d codes h1 h2 k A B C B1 B2 E1 E2 HR. split.
  - intros b EK. apply (hint_literal l1 l2 p d codes h1 h2 k b); auto. right. auto.
  - intros l3 h3 r D D' E3 EK. apply (hint_match l1 l2 l3 p d codes h1 h2 h3 k r); auto; right; (split; [lia|]); (split; [lia|]); (split; [lia|exact HR]).
Qed.

Lemma all_nth (l : list Trace) n : List.length l = n -> (forall k, (k < n)%nat -> nth_error l k = Some Correct) -> l = repeat Correct n.
Proof.
  revert n. induction l as [|h l IH]; intros n EL H; cbn [List.length] in EL; subst n; [reflexivity|]. cbn [repeat].
  assert (H0 := H 0%nat ltac:(lia)). injection H0 as ->. f_equal. apply IH; [reflexivity|]. intros k HK. apply (H (S k)). lia.
Qed.
Lemma nth_repeat_correct n k : (k < n)%nat -> nth_error (repeat Correct n) k = Some Correct.
Proof. revert k. induction n as [|n IH]; intros [|k] H; try lia; cbn [repeat nth_error]; [reflexivity|]. apply IH. lia. Qed.

Lemma C96_lemma_files : forall l1 l2 l3 preroll data codes, 4 <= l1 -> l1 <= l2 -> l2 <= l3 -> l3 <= 9 -> bytes_ok preroll -> bytes_ok data ->
  Forall code_ok codes -> encodes preroll data codes ->
  try_gzip l1 preroll data codes = Ok (repeat Correct (List.length codes)) -> try_gzip l3 preroll data codes = Ok (repeat Correct (List.length codes)) ->
  try_gzip l2 preroll data codes = Ok (repeat Correct (List.length codes)).
Proof.
  intros l1 l2 l3 p d codes A B C D B1 B2 HC HE E1 E3. destruct (gzip_levels_config l2 ltac:(lia)) as (c & EC).
  set (limit := match insert_only_below_length (cfg_wams c) with Some l => l | None => 65535 end).
  destruct (with_sixteen_ok p d limit) as (refs & EW & _). destruct (C41_lemma c p d limit refs codes B1 B2 EW HE) as (hints & ET & EL).
  assert (EH : hints = repeat Correct (List.length codes)).
  { apply all_nth; [exact EL|]. intros k HK. destruct (nth_error codes k) as [x|] eqn:EK; [|apply nth_error_None in EK; lia].
    assert (T := proj1 (level_traced l2 c p d refs codes hints EC B1 B2 EW) ET).
    assert (X2 := traced_one _ _ _ (level_single _ l2) _ _ _ _ T k x EK). cbn [app] in X2.
    assert (X1 := level_hint l1 p d codes _ k x B1 B2 E1 EK). assert (X3 := level_hint l3 p d codes _ k x B1 B2 E3 EK).
    rewrite nth_repeat_correct in X1, X3 by exact HK. destruct X1 as (HP & g1 & C1 & D1), X3 as (_ & g3 & C3 & D3).
    destruct (nth_error hints k) as [h|]; [|lia]. destruct X2 as (_ & g2 & C2 & D2). f_equal.
    destruct D1 as [(-> & _)|(_ & D1)]; [|exfalso; now apply (instead_not x)]. destruct D3 as [(-> & _)|(_ & D3)]; [|exfalso; now apply (instead_not x)].
    destruct (comparable_runs l1 l2 (firstn k codes) (List.length p)) as (N1 & R1 & R2); [left; lia|]. destruct (comparable_runs l2 l3 (firstn k codes) (List.length p)) as (N2 & _ & R3); [left; lia|].
    rewrite R1 in C1. rewrite R2 in C2. rewrite R3 in C3. destruct D2 as [(_ & ->)|(NE & _)]; [reflexivity|]. exfalso. apply NE. destruct x as [b|r].
    - destruct g2 as [b2|r2].
      + destruct C1 as (? & ? & ? & ? & _ & C1), C2 as (? & ? & ? & ? & _ & C2). inversion C1; inversion C2; subst. congruence.
      + destruct (level_wider _ l2 l3 _ _ r2 HP N2 C2) as (r3 & C3' & _). assert (Z := level_fun _ _ _ _ _ _ C3 C3'). discriminate Z.
    - destruct (level_wider _ l1 l2 _ _ r HP N1 C1) as (r2 & C2' & HR2). rewrite (level_fun _ _ _ _ _ _ C2 C2').
      destruct (level_wider _ l2 l3 _ _ r2 HP N2 C2') as (r3 & C3' & HR3). assert (Z := level_fun _ _ _ _ _ _ C3 C3'). injection Z as <-.
      f_equal. destruct HR2 as [->|(L1 & _)]; [reflexivity|]. destruct HR3 as [->|(L2 & _)]; [reflexivity|lia]. }
  subst hints. unfold try_gzip. rewrite EC. cbn [obind]. apply (tracer_try_ok c p d codes refs); auto. right. intro HI. apply repeat_spec in HI. discriminate.
Qed.

(** The search itself, for any two configurations. *)
Lemma C96_lemma_search : forall config1 config2 preroll data limit1 limit2 refs1 refs2 history pos literal r1,
  cfg_picker config1 = cfg_picker config2 ->
  insert_only_below_length (cfg_wams config1) = insert_only_below_length (cfg_wams config2) ->
  (limit_count_of_distances (cfg_wams config1) <= limit_count_of_distances (cfg_wams config2))%nat ->
  quit_search_above_length (cfg_wams config1) <= quit_search_above_length (cfg_wams config2) -> limit1 <= limit2 ->
  with_sixteen preroll data limit1 = Ok refs1 -> with_sixteen preroll data limit2 = Ok refs2 ->
  best_candidate (mkTechnique config1 refs1)
    (sc_obscured (fold_left (feedback (mkTechnique config1 refs1)) history (scanner (mkTechnique config1 refs1)))) pos = Ok (literal, Some r1) ->
  exists r2,
    best_candidate (mkTechnique config2 refs2)
      (sc_obscured (fold_left (feedback (mkTechnique config2 refs2)) history (scanner (mkTechnique config2 refs2)))) pos = Ok (literal, Some r2)
    /\ (r2 = r1 \/ (ref_len r1 < ref_len r2 /\ r_dist r1 < r_dist r2)).
Proof.
  intros c1 c2 p d n1 n2 refs1 refs2 hist pos lit r1 HP HI HC HK HN E1 E2 EB.
  destruct (technique_of c1 _ _ _ _ E1) as (R1 & L1 & _). destruct (technique_of c2 _ _ _ _ E2) as (R2 & L2 & _).
  assert (EL1 : ar_limit refs1 = n1) by (unfold with_sixteen in E1; apply obind_ok in E1; destruct E1 as (? & _ & E1); injection E1 as <-; reflexivity).
  assert (EL2 : ar_limit refs2 = n2) by (unfold with_sixteen in E2; apply obind_ok in E2; destruct E2 as (? & _ & E2); injection E2 as <-; reflexivity).
  assert (PP : forall c refs l, with_sixteen p d l = Ok refs -> sc_pos (scanner (mkTechnique c refs)) = List.length p).
  { intros c refs l E. unfold with_sixteen in E. apply obind_ok in E. destruct E as (? & _ & E). injection E as <-. reflexivity. }
  rewrite feedback_runs in EB |- *. cbn [sc_obscured t_config] in *. rewrite (PP c1 refs1 n1 E1) in EB. rewrite (PP c2 refs2 n2 E2).
  change (sc_obscured (scanner (mkTechnique c1 refs1))) with (@nil (nat * N)) in EB. change (sc_obscured (scanner (mkTechnique c2 refs2))) with (@nil (nat * N)).
  rewrite <- HI. cbn [app] in *. set (runs := long_runs (insert_only_below_length (cfg_wams c1)) (List.length p) hist) in *.
  assert (HB : (pos < List.length (p ++ d))%nat).
  { unfold best_candidate, best_candidate_better_than in EB. apply obind_ok in EB. destruct EB as (x & EX & _). cbn [t_refs] in EX.
    unfold ar_get, get_idx in EX. unfold with_sixteen in E1. apply obind_ok in E1. destruct E1 as (? & _ & E1). injection E1 as <-. cbn [ar_preroll ar_data] in EX.
    rewrite app_length. destruct (Nat.ltb_spec pos (List.length p)); [lia|]. destruct (nth_error d (pos - List.length p)) eqn:EN; [|discriminate EX].
    assert (X : nth_error d (pos - List.length p) <> None) by congruence. apply nth_error_Some in X. lia. }
  destruct (search_spec _ _ R1 runs pos None HB) as (f1 & S1 & H1). destruct (search_spec _ _ R2 runs pos None HB) as (f2 & S2 & H2).
  unfold best_candidate in *. rewrite S1 in EB. injection EB as <- ->. rewrite S2. assert (M1 := proj1 (H1 r1) eq_refl). unfold finds, plain_search in M1. cbn [t_refs t_config] in M1. rewrite EL1 in M1.
  destruct (match_at_wider _ n1 n2 _ _ _ _ _ _ _ _ HB HN HC HK M1) as (r2 & M2 & HR). exists r2. split; [|exact HR]. f_equal. f_equal. apply H2. unfold finds, plain_search. cbn [t_refs t_config]. rewrite EL2, <- HP. exact M2.
Qed.

(** Two low levels: the higher one looks at more positions, but more of them are in the way. *)
Definition C96_data : list N := [9; 1; 1; 0; 5] ++ repeat 32 11 ++ [1; 1; 0; 7].
Definition C96_codes : list Code :=
  [Literal 9; Literal 1; Literal 1; Literal 0; Literal 5; Literal 32; Reference (mkRef 1 2); Reference (mkRef 1 2); Literal 1; Literal 1; Literal 0; Literal 7].

Lemma C96_lemma_refuted : exists l1 l2 data codes hints1 hints2 k b, 1 <= l1 /\ l1 <= l2 /\ l2 <= 9 /\ bytes_ok data /\ Forall code_ok codes /\ encodes [] data codes
  /\ try_gzip l1 [] data codes = Ok hints1 /\ try_gzip l2 [] data codes = Ok hints2 /\ nth_error codes k = Some (Literal b)
  /\ nth_error hints2 k = Some Correct /\ nth_error hints1 k <> Some Correct.
Proof.
  exists 1, 2, C96_data, C96_codes. destruct (try_gzip 1 [] C96_data C96_codes) as [h1| | |] eqn:E1; try (vm_compute in E1; discriminate E1).
  destruct (try_gzip 2 [] C96_data C96_codes) as [h2| | |] eqn:E2; try (vm_compute in E2; discriminate E2). exists h1, h2, 8%nat, 1.
  vm_compute in E1, E2. injection E1 as <-. injection E2 as <-. repeat split; try lia; try (vm_compute; reflexivity); try (vm_compute; discriminate).
  - repeat constructor.
  - repeat constructor; unfold code_ok, ref_ok; cbn; lia.
Qed.

(** ** Low and high levels *)
Lemma rev_seq_split a q n : (a <= q < a + n)%nat -> exists x y, rev (seq a n) = x ++ q :: y /\ (List.length x = a + n - 1 - q)%nat.
Proof.
  intro H. exists (rev (seq (S q) (a + n - 1 - q))), (rev (seq a (q - a))). split; [|now rewrite rev_length, seq_length].
  replace n with ((q - a) + S (a + n - 1 - q))%nat at 1 by lia. rewrite seq_app, rev_app_distr. replace (a + (q - a))%nat with q by lia. cbn [seq rev]. now rewrite <- app_assoc.
Qed.

Lemma in_firstn_mid {A} n (x : list A) q y : (List.length x < n)%nat -> In q (firstn n (x ++ q :: y)).
Proof. intro H. rewrite firstn_app. apply in_app_iff. right. destruct (n - List.length x)%nat eqn:E; [lia|]. now left. Qed.

Lemma filter_le {A} (f : A -> bool) l : (List.length (filter f l) <= List.length l)%nat.
Proof. induction l as [|a l IH]; cbn [filter List.length]; [lia|]. destruct (f a); cbn [List.length]; lia. Qed.

(** A search that nothing is hidden from tries every position another one tries. *)
Lemma candidates_all w n runs pos q m : In q (candidates w n runs pos) -> 32768 < N.of_nat m -> In q (candidates w m [] pos).
Proof.
  intros H HM. unfold candidates in *. apply filter_In in H. destruct H as [H HQ]. apply filter_In. split; [|exact HQ].
  apply firstn_In, filter_In in H. destruct H as [HI HF]. rewrite <- in_rev, in_seq in HI. apply andb_prop in HQ. destruct HQ as [HD _]. apply N.leb_le in HD.
  apply andb_prop in HF. destruct HF as [HF _].
  destruct (rev_seq_split 1 q (pos - 1) ltac:(lia)) as (x & y & -> & EL). rewrite filter_app. cbn [filter].
  assert (HH : (hash3 w q =? hash3 w pos) && negb (hidden [] q) = true) by (rewrite HF; reflexivity). rewrite HH.
  apply in_firstn_mid. assert (X := filter_le (fun q0 => (hash3 w q0 =? hash3 w pos) && negb (hidden [] q0)) x). lia.
Qed.

Lemma candidates_three w n runs pos q : In q (candidates w n runs pos) -> three w q = three w pos.
Proof.
  unfold candidates. intro H. apply filter_In in H. destruct H as [_ H]. apply andb_prop in H. destruct H as [_ H]. destruct (list_eq_dec _ _ _) as [E|]; [exact E|discriminate H].
Qed.

Lemma match_at_high w s runs pos r c k m : (pos < List.length w)%nat -> match_at w s runs pos r -> (1 <= c)%nat -> 32768 < N.of_nat m ->
  (forall q, (1 <= q)%nat -> (q + N.to_nat 4096 < pos)%nat -> three w q <> three w pos) ->
  exists r', match_at w (mkSearch m c k true) [] pos r'.
Proof.
  intros HP (refs & F & B & _) HC HM HF.
  assert (EX : exists q, In q (candidates w m [] pos)).
  { destruct B as (b & a & -> & _). apply Forall2_app_inv_r in F. destruct F as (l1 & l2 & _ & F & E). inversion F as [|q ? l3 ? _ _]; subst.
    assert (I : In q (candidates w (nearest s) runs pos)) by (eapply firstn_In; rewrite E; apply in_app_iff; right; now left).
    exists q. eapply candidates_all; eassumption. }
  destruct EX as (q & HQ). destruct (candidate_refs w (N.of_nat m) [] pos HP) as (all & FA). rewrite Nat2N.id in FA. assert (F2 := firstn_forall2 _ _ _ FA c).
  assert (Y := capped_spec ref_len k (firstn c all)). destruct (capped_max_by ref_len k (firstn c all)) as [r'|].
  - exists r'. exists (firstn c all). cbn [nearest chain nice no_far_threes]. split; [exact F2|]. split; [exact Y|]. intros _. right.
    destruct Y as (b & a & E & _). rewrite E in F2. apply Forall2_app_inv_r in F2. destruct F2 as (l1 & l2 & _ & F2 & E2). inversion F2 as [|q' ? l3 ? (D & _) _]; subst.
    assert (I : In q' (candidates w m [] pos)) by (eapply firstn_In; rewrite E2; apply in_app_iff; right; now left).
    assert (T := candidates_three _ _ _ _ _ I). apply candidates_below in I. rewrite D. destruct (Nat.ltb_spec (q' + N.to_nat 4096) pos) as [X|X]; [|lia].
    exfalso. exact (HF q' ltac:(lia) X T).
  - exfalso. destruct (candidates w m [] pos) as [|q0 qs]; [destruct HQ|]. inversion FA as [|? r0 ? rs _ _]; subst. destruct c; [lia|discriminate Y].
Qed.

Lemma C96_lemma_across : forall l1 l2 preroll data codes hints1 hints2 k b, 1 <= l1 <= 3 -> 4 <= l2 <= 9 -> bytes_ok preroll -> bytes_ok data ->
  try_gzip l1 preroll data codes = Ok hints1 -> try_gzip l2 preroll data codes = Ok hints2 -> nth_error codes k = Some (Literal b) ->
  (let text := preroll ++ data in let pos := (List.length preroll + codes_len (firstn k codes))%nat in
   forall q, (1 <= q)%nat -> (q + N.to_nat 4096 < pos)%nat -> firstn 3 (skipn q text) <> firstn 3 (skipn pos text)) ->
  nth_error hints2 k = Some Correct -> nth_error hints1 k = Some Correct.
Proof.
  intros l1 l2 p d codes h1 h2 k b H1 H2 B1 B2 E1 E2 EK HF EH. cbv zeta in HF.
  assert (X1 := level_hint l1 p d codes h1 k _ B1 B2 E1 EK). assert (X2 := level_hint l2 p d codes h2 k _ B1 B2 E2 EK). rewrite EH in X2.
  destruct X2 as (HP & g2 & C2 & D2). destruct (nth_error h1 k) as [h|]; [|lia]. destruct X1 as (_ & g1 & C1 & D1).
  destruct D2 as [(-> & _)|(_ & D2)]; [|exfalso; now apply (instead_not (Literal b))].
  destruct D1 as [(_ & ->)|(NE & ->)]; [reflexivity|]. exfalso.
  assert (EL : level_limit l2 = None).
  { unfold level_limit. destruct (nth_error gzip_levels _) as [[[[? ?] ?] ?]|]; [|reflexivity]. destruct (N.ltb_spec l2 4); [lia|reflexivity]. }
  rewrite EL, no_long_runs in C2 by exact I.
  destruct C1 as (? & ? & ? & ? & _ & C1), C2 as (g & z & n & c & EN & C2). destruct (N.ltb_spec l2 4) as [X|_]; [lia|]. destruct (N.leb_spec 4 l2) as [_|X]; [|lia].
  inversion C2 as [|b' NM EB]; subst. inversion C1 as [r1 M1|b1 NM1 EB1]; subst; [|apply NE; congruence].
  assert (HC : (1 <= N.to_nat c)%nat).
  { assert (Y : l2 = 4 \/ l2 = 5 \/ l2 = 6 \/ l2 = 7 \/ l2 = 8 \/ l2 = 9) by lia.
    destruct Y as [Y|[Y|[Y|[Y|[Y|Y]]]]]; subst l2; vm_compute in EN; injection EN as <- <- <- <-; lia. }
  destruct (match_at_high _ _ _ _ r1 (N.to_nat c) n (N.to_nat 65535) HP M1 HC ltac:(lia) HF) as (r' & M'). exact (NM r' M').
Qed.

(** Between level 3 and level 4 the search becomes wider in one way and narrower in another. *)
Definition C96_between : list N := 99 :: map N.of_nat (seq 0 20) ++ [98] ++ map N.of_nat (seq 0 16) ++ [97] ++ map N.of_nat (seq 0 20).
Definition C96_between_codes : list Code :=
  Literal 99 :: map (fun b => Literal (N.of_nat b)) (seq 0 20) ++ [Literal 98; Reference (mkRef 21 13); Literal 97; Reference (mkRef 38 17)].

Lemma C96_lemma_match_refuted : exists data codes, bytes_ok data /\ Forall code_ok codes /\ encodes [] data codes
  /\ try_gzip 3 [] data codes = Ok (repeat Correct (List.length codes)) /\ try_gzip 5 [] data codes = Ok (repeat Correct (List.length codes))
  /\ try_gzip 4 [] data codes <> Ok (repeat Correct (List.length codes)).
Proof.
  exists C96_between, C96_between_codes. split; [repeat constructor|]. split; [repeat constructor; unfold code_ok, ref_ok; cbn; lia|]. split; [vm_compute; reflexivity|].
  split; [vm_compute; reflexivity|]. split; [vm_compute; reflexivity|]. vm_compute. discriminate.
Qed.
