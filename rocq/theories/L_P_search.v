(** Proofs of C32-C35. *)
From Verif Require Import Base M_bit M_lib M_all_refs Spec Clients L_bits L_ring L_search.
From Coq Require Import ZArith ZifyBool ZifyNat ZifyN Sorted.
Ltac Zify.zify_post_hook ::= Z.div_mod_to_equations.
Local Open Scope N_scope.
Local Open Scope model_scope.

Lemma firstn_S_snoc {A} (l : list A) n x : nth_error l n = Some x -> firstn (S n) l = firstn n l ++ [x].
Proof.
  revert n. induction l as [|y l IH]; intros [|n] E; cbn [nth_error] in E; try discriminate.
  - injection E as ->. reflexivity.
  - cbn [firstn app]. f_equal. now apply IH.
Qed.

Lemma lz_copy_match w pos d : (1 <= d <= pos)%nat -> forall n, (pos + n <= List.length w)%nat ->
  (forall i, (i < n)%nat -> nth_error w (pos + i) = nth_error w (pos + i - d)) ->
  lz_copy n d (firstn pos w) = firstn (pos + n) w.
Proof.
  intros Hd n. revert pos Hd. induction n as [|n IH]; intros pos Hd Hn HM; cbn [lz_copy]; [now rewrite Nat.add_0_r|].
  replace (pos + S n)%nat with (S pos + n)%nat by lia.
  assert (E : firstn pos w ++ [nth (List.length (firstn pos w) - d) (firstn pos w) 0] = firstn (S pos) w).
  { rewrite firstn_length, Nat.min_l by lia.
    assert (H0 := HM 0%nat ltac:(lia)). rewrite Nat.add_0_r in H0.
    rewrite (firstn_S_snoc w pos (nth (pos - d) w 0)).
    - do 2 f_equal. rewrite <- (firstn_skipn pos w) at 2. rewrite app_nth1; [reflexivity|]. rewrite firstn_length. lia.
    - rewrite H0. apply nth_error_nth'. lia. }
  rewrite E. apply IH; [lia|lia|]. intros i Hi. replace (S pos + i)%nat with (pos + S i)%nat by lia. apply HM. lia.
Qed.

Lemma good_ref_copy w pos r : good_ref w pos r ->
  (pos + N.to_nat (ref_len r) <= List.length w)%nat
  /\ lz_copy (N.to_nat (ref_len r)) (N.to_nat (r_dist r)) (firstn pos w) = firstn (pos + N.to_nat (ref_len r)) w.
Proof.
  intros (HR & HD & HL & HB & HM & _). unfold ref_ok in HR. split; [assumption|]. apply lz_copy_match; [lia|assumption|assumption].
Qed.

Lemma C32_lemma : forall preroll data limit a pos runs refs r,
  with_sixteen preroll data limit = Ok a -> ar_at a pos runs = Ok (Some refs) -> In r refs ->
  let w := preroll ++ data in
  1 <= r_dist r <= 32768 /\ 3 <= ref_len r <= 258
  /\ (N.to_nat (r_dist r) <= pos)%nat
  /\ (pos + N.to_nat (ref_len r) <= List.length w)%nat
  /\ lz_copy (N.to_nat (ref_len r)) (N.to_nat (r_dist r)) (firstn pos w) = firstn (pos + N.to_nat (ref_len r)) w.
Proof.
  intros preroll data limit a pos runs refs r EW EA HI w. destruct (with_sixteen_ok preroll data limit) as (a' & EW' & R & _).
  rewrite EW in EW'. injection EW' as <-. assert (X := ar_at_ok _ _ pos runs R). fold w in R, X. rewrite EA in X.
  destruct (Nat.ltb (pos + 2) (List.length w)); [|discriminate]. destruct X as (refs' & [= <-] & _ & HF).
  rewrite Forall_forall in HF. specialize (HF r HI). assert (G := good_ref_copy _ _ _ HF). destruct HF as (HR & HD & _).
  unfold ref_ok, ref_len in *. split; [lia|]. split; [lia|]. split; [lia|]. exact G.
Qed.

Lemma C33_lemma : forall preroll data limit a pos runs refs r,
  with_sixteen preroll data limit = Ok a -> ar_at a pos runs = Ok (Some refs) -> In r refs ->
  longest_match (preroll ++ data) pos (N.to_nat (r_dist r)) (N.to_nat (ref_len r)).
Proof.
  intros preroll data limit a pos runs refs r EW EA HI. destruct (with_sixteen_ok preroll data limit) as (a' & EW' & R & _).
  rewrite EW in EW'. injection EW' as <-. assert (X := ar_at_ok _ _ pos runs R). rewrite EA in X.
  destruct (Nat.ltb (pos + 2) _); [|discriminate]. destruct X as (refs' & [= <-] & _ & HF).
  rewrite Forall_forall in HF. apply HF. assumption.
Qed.

Lemma sorted_filter {A} (R : A -> A -> Prop) f l : StronglySorted R l -> StronglySorted R (filter f l).
Proof.
  induction 1 as [|x l HS IH HF]; cbn [filter]; [constructor|]. destruct (f x); [|assumption]. constructor; [assumption|].
  rewrite Forall_forall in *. intros y HY. apply filter_In in HY. now apply HF.
Qed.
Lemma sorted_firstn {A} (R : A -> A -> Prop) n l : StronglySorted R l -> StronglySorted R (firstn n l).
Proof.
  intro H. revert n. induction H as [|x l HS IH HF]; intros [|n]; cbn [firstn]; try constructor; [apply IH|].
  rewrite Forall_forall in *. intros y HY. apply firstn_In in HY. now apply HF.
Qed.
Lemma sorted_rev_seq n : StronglySorted (fun a b => (b < a)%nat) (rev (seq 1 n)).
Proof.
  induction n as [|n IH]; [constructor|]. rewrite seq_S, rev_app_distr. cbn [rev app]. constructor; [assumption|].
  rewrite Forall_forall. intros y HY. rewrite <- in_rev, in_seq in HY. lia.
Qed.
Lemma sorted_map {A B} (R : A -> A -> Prop) (S : B -> B -> Prop) (f : A -> B) l :
  (forall x y, In x l -> In y l -> R x y -> S (f x) (f y)) -> StronglySorted R l -> StronglySorted S (map f l).
Proof.
  intros H HS. induction HS as [|x l HS IH HF]; cbn [map]; [constructor|]. constructor.
  - apply IH. intros; apply H; auto; now right.
  - rewrite Forall_forall in *. intros y HY. apply in_map_iff in HY. destruct HY as (z & <- & HZ). apply H; auto; [now left|now right].
Qed.

Lemma candidates_in w limit runs pos q : In q (candidates w limit runs pos) -> (1 <= q < pos)%nat.
Proof.
  unfold candidates. intro H. apply filter_In in H. destruct H as [H _]. apply firstn_In in H. apply filter_In in H.
  destruct H as [H _]. rewrite <- in_rev, in_seq in H. lia.
Qed.

Lemma C34_lemma : forall preroll data limit a pos runs refs,
  with_sixteen preroll data limit = Ok a -> ar_at a pos runs = Ok (Some refs) ->
  map r_dist refs = map (fun q => N.of_nat (pos - q)) (candidates (preroll ++ data) (N.to_nat limit) runs pos)
  /\ StronglySorted N.lt (map r_dist refs).
Proof.
  intros preroll data limit a pos runs refs EW EA. destruct (with_sixteen_ok preroll data limit) as (a' & EW' & R & EL & _).
  rewrite EW in EW'. injection EW' as <-. assert (X := ar_at_ok _ _ pos runs R). rewrite EA in X.
  destruct (Nat.ltb (pos + 2) _); [|discriminate]. destruct X as (refs' & [= <-] & HD & _). rewrite EL in HD. split; [assumption|].
  rewrite HD. apply (sorted_map (fun a b => (b < a)%nat)).
  - intros x y HX HY HL. apply candidates_in in HX, HY. lia.
  - unfold candidates. apply sorted_filter, sorted_firstn, sorted_filter, sorted_rev_seq.
Qed.

(** What [candidates] means. *)
Lemma C34_lemma_all : forall preroll data limit a pos runs refs q,
  with_sixteen preroll data limit = Ok a -> ar_at a pos runs = Ok (Some refs) ->
  (pos <= N.to_nat limit)%nat ->
  ((exists r, In r refs /\ (pos = q + N.to_nat (r_dist r))%nat)
   <-> (1 <= q < pos)%nat /\ (pos - q <= N.to_nat 32768)%nat /\ hidden runs q = false
       /\ three (preroll ++ data) q = three (preroll ++ data) pos).
Proof.
  intros preroll data limit a pos runs refs q EW EA HL. destruct (C34_lemma _ _ _ _ _ _ _ EW EA) as [HD _].
  set (w := preroll ++ data) in *.
  assert (X : (exists r, In r refs /\ (pos = q + N.to_nat (r_dist r))%nat) <-> In q (candidates w (N.to_nat limit) runs pos)).
  { split.
    - intros (r & HI & E). assert (I : In (r_dist r) (map r_dist refs)) by now apply in_map. rewrite HD in I.
      apply in_map_iff in I. destruct I as (q' & E' & HI'). assert (HC := candidates_in _ _ _ _ _ HI'). now replace q with q' by lia.
    - intro HI. assert (HC := candidates_in _ _ _ _ _ HI). assert (I : In (N.of_nat (pos - q)) (map r_dist refs)).
      { rewrite HD. apply in_map_iff. eauto. }
      apply in_map_iff in I. destruct I as (r & E & HR). exists r. split; [assumption|lia]. }
  rewrite X. clear X. unfold candidates. rewrite filter_In. rewrite firstn_all2.
  2: { transitivity (List.length (rev (seq 1 (pos - 1)))); [|rewrite rev_length, seq_length; lia].
       generalize (rev (seq 1 (pos - 1))). intro l. induction l as [|x l IH]; cbn [filter List.length]; [lia|]. destruct (_ && _); cbn [List.length]; lia. }
  rewrite filter_In, <- in_rev, in_seq, !Bool.andb_true_iff.
  assert (K : (pos + 2 < List.length w)%nat).
  { destruct (with_sixteen_ok preroll data limit) as (a' & EW' & R & _). rewrite EW in EW'. injection EW' as <-.
    assert (X := ar_at_ok _ _ pos runs R). fold w in X. destruct (Nat.ltb_spec (pos + 2) (List.length w)); [assumption|congruence]. }
  split.
  - intros ((H1 & H2 & H3) & H4 & H5). destruct (list_eq_dec _ _ _); [|discriminate]. apply Bool.negb_true_iff in H3. repeat split; try lia; assumption.
  - intros (H1 & H2 & H3 & H4). rewrite H3. split; [|split; [lia|destruct (list_eq_dec _ _ _); [reflexivity|contradiction]]].
    split; [lia|]. split; [|reflexivity]. apply N.eqb_eq. rewrite !three_eq in H4 by lia. injection H4 as E0 E1 E2.
    unfold hash3. now rewrite E0, E1, E2.
Qed.

Lemma C35_lemma : forall preroll data limit, exists a, with_sixteen preroll data limit = Ok a
  /\ forall pos runs, exists found, ar_at a pos runs = Ok found
       /\ (found = None <-> (List.length preroll + List.length data <= pos + 2)%nat)
       /\ (pos = 0%nat -> found = None \/ found = Some [])
       /\ forall refs r, found = Some refs -> In r refs -> (N.to_nat (r_dist r) < pos)%nat.
Proof.
  intros preroll data limit. destruct (with_sixteen_ok preroll data limit) as (a & EW & R & _). exists a. split; [assumption|].
  intros pos runs. assert (X := ar_at_ok _ _ pos runs R). rewrite app_length in X. destruct (Nat.ltb_spec (pos + 2) (List.length preroll + List.length data)).
  - destruct X as (refs & E & HD & HF). exists (Some refs). split; [assumption|]. split; [split; [discriminate|lia]|]. rewrite Forall_forall in HF. split.
    + intros ->. right. f_equal. destruct refs as [|r refs]; [reflexivity|]. specialize (HF r (or_introl eq_refl)). destruct HF as (_ & HF & _). lia.
    + intros refs' r [= <-] HI. apply HF in HI. apply HI.
  - exists None. split; [assumption|]. split; [split; [lia|reflexivity]|]. split; [now left|discriminate].
Qed.
