(** Lemmas: picking candidates and guessing codes. *)
From Verif Require Import Base M_bit M_lib M_all_refs M_technique Spec Clients L_bits L_ring L_search L_P_search.
From Coq Require Import ZArith ZifyBool ZifyNat ZifyN Sorted.
Ltac Zify.zify_post_hook ::= Z.div_mod_to_equations.
Local Open Scope N_scope.
Local Open Scope model_scope.

(** ** The capped maximum *)
Section Capped.
  Context {A : Type} (f : A -> N) (cap : N).
  Lemma capped_loop_spec l : forall before m, f m < cap -> (forall y, In y before -> f y < f m) ->
    forall mid, (forall y, In y mid -> f y <= f m) ->
    first_best f cap (before ++ m :: mid ++ l) (capped_max_loop f cap m (f m) l).
  Proof.
    induction l as [|c l IH]; intros before m HC HB mid HM; cbn [capped_max_loop].
    - exists before, (mid ++ []). split; [reflexivity|]. right. rewrite app_nil_r. split; [|auto].
      intros y HY. apply in_app_or in HY. destruct HY as [HY|[<-|HY]]; [apply HB in HY; lia|assumption|apply HM in HY; lia].
    - destruct (N.ltb_spec (f m) (f c)) as [HL|HL].
      + assert (EB : before ++ m :: mid ++ c :: l = (before ++ m :: mid) ++ c :: l) by (rewrite <- app_assoc; reflexivity).
        assert (BB : forall y, In y (before ++ m :: mid) -> f y <= f m).
        { intros y HY. apply in_app_or in HY. destruct HY as [HY|[<-|HY]]; [apply HB in HY; lia|lia|apply HM in HY; lia]. }
        destruct (N.leb_spec cap (f c)) as [HCC|HCC].
        * exists (before ++ m :: mid), l. split; [assumption|]. left. split; [assumption|]. intros y HY. apply BB in HY. lia.
        * rewrite EB. apply (IH (before ++ m :: mid) c HCC) with (mid := []); [|intros y []]. intros y HY. apply BB in HY. lia.
      + replace (mid ++ c :: l) with ((mid ++ [c]) ++ l) by (rewrite <- app_assoc; reflexivity). apply IH; [assumption|assumption|].
        intros y HY. apply in_app_or in HY. destruct HY as [HY|[<-|[]]]; [now apply HM|assumption].
  Qed.

  Lemma capped_spec l : match capped_max_by f cap l with None => l = [] | Some x => first_best f cap l x end.
  Proof.
    destruct l as [|m l]; cbn [capped_max_by]; [reflexivity|]. destruct (N.leb_spec cap (f m)).
    - exists [], l. split; [reflexivity|]. left. split; [assumption|]. intros y [].
    - apply (capped_loop_spec l [] m ltac:(assumption)) with (mid := []); intros y [].
  Qed.

  Lemma first_best_in l x : first_best f cap l x -> In x l.
  Proof. intros (b & a & -> & _). apply in_or_app. right. now left. Qed.

  (** There is only one. *)
  Lemma first_best_unique l x y : first_best f cap l x -> first_best f cap l y -> x = y.
  Proof.
    intros (b1 & a1 & E1 & H1) (b2 & a2 & E2 & H2).
    assert (L : List.length b1 = List.length b2).
    { destruct (lt_eq_lt_dec (List.length b1) (List.length b2)) as [[L|L]|L]; [|exact L|].
      - exfalso. assert (I : In x b2 /\ In y a1).
        { clear H1 H2. revert l b2 E1 E2 L. induction b1 as [|z b1 IH]; intros l b2 E1 E2 L.
          - destruct b2 as [|z2 b2]; [cbn in L; lia|]. rewrite E1 in E2. cbn [app] in E2. injection E2 as <- ->. split; [now left|]. apply in_or_app. right. now left.
          - destruct b2 as [|z2 b2]; [cbn in L; lia|]. cbn [app] in E1, E2. destruct l as [|z3 l]; [discriminate|]. injection E1 as -> E1. injection E2 as -> E2.
            cbn [List.length] in L. destruct (IH l b2 E1 E2 ltac:(lia)). split; [now right|assumption]. }
        destruct I as [I1 I2]. assert (IX : In x l) by (rewrite E1; apply in_or_app; right; now left). assert (IY : In y l) by (rewrite E2; apply in_or_app; right; now left).
        destruct H1 as [[H1 H1']|(H1 & H1' & H1'')]; destruct H2 as [[H2 H2']|(H2 & H2' & H2'')].
        + apply H2' in I1. lia.
        + apply H2 in IX. lia.
        + apply H1 in IY. lia.
        + apply H2' in I1. apply H1'' in I2. lia.
      - exfalso. assert (I : In y b1 /\ In x a2).
        { clear H1 H2. revert l b1 E1 E2 L. induction b2 as [|z b2 IH]; intros l b1 E1 E2 L.
          - destruct b1 as [|z2 b1]; [cbn in L; lia|]. rewrite E2 in E1. cbn [app] in E1. injection E1 as <- ->. split; [now left|]. apply in_or_app. right. now left.
          - destruct b1 as [|z2 b1]; [cbn in L; lia|]. cbn [app] in E1, E2. destruct l as [|z3 l]; [discriminate|]. injection E1 as -> E1. injection E2 as -> E2.
            cbn [List.length] in L. destruct (IH l b1 E1 E2 ltac:(lia)). split; [now right|assumption]. }
        destruct I as [I1 I2]. assert (IX : In x l) by (rewrite E1; apply in_or_app; right; now left). assert (IY : In y l) by (rewrite E2; apply in_or_app; right; now left).
        destruct H1 as [[H1 H1']|(H1 & H1' & H1'')]; destruct H2 as [[H2 H2']|(H2 & H2' & H2'')].
        + apply H1' in I1. lia.
        + apply H2 in IX. lia.
        + apply H1 in IY. lia.
        + apply H1' in I1. apply H2'' in I2. lia. }
    rewrite E1 in E2. clear E1 H1 H2. revert b2 L E2. induction b1 as [|z b1 IH]; intros [|z2 b2] L E; try discriminate L; cbn [app] in E; [injection E; auto|].
    injection E as _ E. injection L as L. now apply (IH b2).
  Qed.
End Capped.

Lemma picker_in p l cap r : picker p l cap = Some r -> In r l.
Proof.
  assert (X := capped_spec r_run cap l). unfold picker, drop_far_threes, longest, option_filter.
  destruct (capped_max_by r_run cap l) as [x|]; [|destruct p; discriminate]. apply first_best_in in X.
  destruct p; [now intros [= <-]|]. destruct (_ || _); [now intros [= <-]|discriminate].
Qed.

(** ** Guesses *)
(** [codes] decode to the data from [pos] on, [k] bytes of it. *)
Definition decodes (w : list N) (pos : nat) (codes : list Code) (k : nat) : Prop :=
  (pos + k <= List.length w)%nat /\ lz_decode 32768 (firstn pos w) codes = Some (firstn (pos + k) w).

Lemma good_ref_decode w pos r cs : good_ref w pos r -> (pos <= List.length w)%nat ->
  lz_decode 32768 (firstn pos w) (Reference r :: cs) = lz_decode 32768 (firstn (pos + N.to_nat (ref_len r)) w) cs.
Proof.
  intros G Hp. assert (C := good_ref_copy _ _ _ G). destruct G as (HR & HD & _). unfold ref_ok in HR.
  cbn [lz_decode]. rewrite firstn_length. rewrite (proj2 C).
  assert (X : (1 <=? r_dist r) && (r_dist r <=? 32768) && (r_dist r <=? N.of_nat (Nat.min pos (List.length w))) = true) by lia.
  now rewrite X.
Qed.
Lemma decodes_ref w pos r : good_ref w pos r -> (pos <= List.length w)%nat -> decodes w pos [Reference r] (N.to_nat (ref_len r)).
Proof. intros G Hp. split; [apply (good_ref_copy _ _ _ G)|]. rewrite good_ref_decode by assumption. reflexivity. Qed.
Lemma decodes_lit w pos cs k : (pos < List.length w)%nat -> decodes w (S pos) cs k -> decodes w pos (Literal (nth pos w 0) :: cs) (S k).
Proof.
  intros Hp [H1 H2]. split; [lia|]. cbn [lz_decode]. rewrite <- (firstn_S_snoc w pos) by now apply nth_error_nth'. rewrite H2. do 2 f_equal. lia.
Qed.
Lemma decodes_nil w pos : (pos <= List.length w)%nat -> decodes w pos [] 0.
Proof. intro H. split; [lia|]. cbn [lz_decode]. now rewrite Nat.add_0_r. Qed.

Lemma candidate_ok w t ob pos other : refs_of w (t_refs t) -> (pos < List.length w)%nat ->
  exists found, best_candidate_better_than t ob pos other = Ok (nth pos w 0, found)
    /\ forall r, found = Some r -> good_ref w pos r.
Proof.
  intros R Hp. unfold best_candidate_better_than. rewrite (ar_get_ok w) by assumption. cbn [obind].
  destruct (search_limit _ _) as [limit|]; [|exists None; split; [reflexivity|discriminate]].
  assert (X := ar_at_ok _ _ pos ob R). destruct (Nat.ltb (pos + 2) (List.length w)).
  - destruct X as (refs & E & _ & HF). rewrite E. cbn [obind]. eexists. split; [reflexivity|].
    intros r ER. apply picker_in, firstn_In in ER. rewrite Forall_forall in HF. now apply HF.
  - rewrite X. cbn [obind]. exists None. split; [reflexivity|discriminate].
Qed.

Lemma good_len w pos r : good_ref w pos r -> (3 <= N.to_nat (ref_len r) <= 258)%nat /\ (pos + N.to_nat (ref_len r) <= List.length w)%nat.
Proof. intros (HR & _ & HL & HB & _). unfold ref_ok, ref_len in *. lia. Qed.

Definition good_guess (w : list N) (pos : nat) (o : outcome (list Code)) : Prop :=
  exists codes k, o = Ok codes /\ codes <> [] /\ (1 <= k)%nat /\ decodes w pos codes k /\ Forall code_ok codes.

Lemma guess_ref w pos r : good_ref w pos r -> (pos <= List.length w)%nat -> good_guess w pos (Ok [Reference r]).
Proof.
  intros G H. assert (L := good_len _ _ _ G). exists [Reference r], (N.to_nat (ref_len r)). split; [reflexivity|]. split; [discriminate|].
  split; [lia|]. split; [now apply decodes_ref|]. constructor; [|constructor]. apply G.
Qed.
Lemma guess_lit w pos : bytes_ok w -> (pos < List.length w)%nat -> good_guess w pos (Ok [Literal (nth pos w 0)]).
Proof.
  intros HB H. exists [Literal (nth pos w 0)], 1%nat. split; [reflexivity|]. split; [discriminate|]. split; [lia|].
  split; [apply decodes_lit, decodes_nil; lia|]. constructor; [|constructor]. unfold bytes_ok in HB. rewrite Forall_forall in HB. apply HB, nth_In, H.
Qed.
Lemma guess_cons w pos cs : bytes_ok w -> (pos < List.length w)%nat -> good_guess w (S pos) (Ok cs) -> good_guess w pos (Ok (Literal (nth pos w 0) :: cs)).
Proof.
  intros HB H (codes & k & [= <-] & HN & HK & HD & HC). exists (Literal (nth pos w 0) :: cs), (S k). split; [reflexivity|]. split; [discriminate|].
  split; [lia|]. split; [now apply decodes_lit|]. constructor; [|assumption]. unfold bytes_ok in HB. rewrite Forall_forall in HB. apply HB, nth_In, H.
Qed.

Lemma gzip_loop_ok w t ob : refs_of w (t_refs t) -> bytes_ok w -> forall fuel pos r, (pos < List.length w)%nat -> good_ref w pos r ->
  (258 < fuel + N.to_nat (ref_len r))%nat -> good_guess w pos (la_gzip_loop fuel t ob pos (nth pos w 0) r).
Proof.
  intros R HB fuel. induction fuel as [|fuel IH]; intros pos r Hp G HF; assert (L := good_len _ _ _ G); [lia|].
  cbn [la_gzip_loop]. destruct (candidate_ok w t ob (S pos) (Some (r_run r)) R ltac:(lia)) as (found & E & HG). rewrite E. cbn [obind].
  destruct found as [new|]; [|apply guess_ref; [assumption|lia]].
  destruct (N.ltb_spec (r_run r) (r_run new)) as [HL|]; [|apply guess_ref; [assumption|lia]].
  assert (GN := HG _ eq_refl). destruct (IH (S pos) new ltac:(lia) GN) as (codes & k & EC & HN).
  { unfold ref_len, r_run in *. lia. }
  rewrite EC. cbn [obind]. apply guess_cons; [assumption|assumption|]. exists codes, k. split; [reflexivity|exact HN].
Qed.

Theorem guess_ok w t l ob pos : refs_of w (t_refs t) -> bytes_ok w -> (pos < List.length w)%nat -> good_guess w pos (lookahead l t ob pos).
Proof.
  intros R HB Hp. destruct (candidate_ok w t ob pos None R Hp) as (found & E & HG). destruct l; cbn [lookahead].
  - unfold la_greedy, best_candidate. rewrite E. cbn [obind]. destruct found as [r|]; [|now apply guess_lit]. apply guess_ref; [now apply HG|lia].
  - unfold la_gzip, best_candidate. rewrite E. cbn [obind]. destruct found as [r|]; [|now apply guess_lit]. apply gzip_loop_ok; auto. lia.
  - unfold la_three_zip, best_candidate. rewrite E. cbn [obind]. destruct found as [r|]; [|now apply guess_lit].
    assert (G := HG r eq_refl). assert (L := good_len _ _ _ G).
    destruct (N.ltb_spec 3 (r_run r)) as [|H3]; [apply guess_ref; [assumption|lia]|].
    assert (E3 : 3 = r_run r) by (unfold ref_len, r_run in *; lia). destruct (N.eqb_spec 3 (r_run r)); [|congruence]. cbn [negb].
    assert (LL : N.to_nat (ref_len r) = 3%nat) by (unfold ref_len, r_run in *; lia).
    destruct (candidate_ok w t ob (pos + 1) None R ltac:(lia)) as (f2 & E2 & HG2). rewrite E2. cbn [obind].
    destruct (candidate_ok w t ob (pos + 2) None R ltac:(lia)) as (f3 & E3' & HG3).
    assert (F2 : forall x, option_filter (fun x => 3 <? r_run x) f2 = Some x -> good_ref w (S pos) x).
    { intros x EX. replace (S pos) with (pos + 1)%nat by lia. apply HG2. unfold option_filter in EX. destruct f2 as [y|]; [|discriminate]. destruct (_ <? _); [assumption|discriminate]. }
    assert (F3 : forall x, option_filter (fun x => 4 <? r_run x) f3 = Some x -> good_ref w (S (S pos)) x).
    { intros x EX. replace (S (S pos)) with (pos + 2)%nat by lia. apply HG3. unfold option_filter in EX. destruct f3 as [y|]; [|discriminate]. destruct (_ <? _); [assumption|discriminate]. }
    rewrite E3'. cbn [obind]. replace (pos + 1)%nat with (S pos) by lia.
    assert (T3 : forall x, good_ref w (S (S pos)) x -> good_guess w pos (Ok [Literal (nth pos w 0); Literal (nth (S pos) w 0); Reference x])).
    { intros x GX. apply guess_cons, guess_cons, guess_ref; auto; lia. }
    assert (T2 : forall x, good_ref w (S pos) x -> good_guess w pos (Ok [Literal (nth pos w 0); Reference x])).
    { intros x GX. apply guess_cons, guess_ref; auto; lia. }
    destruct (option_filter (fun x => 3 <? r_run x) f2) as [x2|]; destruct (option_filter (fun x => 4 <? r_run x) f3) as [x3|].
    + destruct (r_run x2 =? 258); [now apply T2, F2|]. destruct (_ <? _); [now apply T3, F3|now apply T2, F2].
    + destruct (r_run x2 =? 258); now apply T2, F2.
    + now apply T3, F3.
    + apply guess_ref; [assumption|lia].
Qed.
