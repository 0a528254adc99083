(** Proofs of C107. *)
From Verif Require Import Base M_bit M_lib M_all_refs M_technique M_trace Spec Clients Spec_encoder Clients_encoder Clients_exact
  L_bits L_ring L_search L_P_search L_tech L_P_tech L_trace L_strace L_P_trace L_P_encoder L_P_exact.
From Coq Require Import ZArith ZifyBool ZifyNat ZifyN.
Ltac Zify.zify_post_hook ::= Z.div_mod_to_equations.
Local Open Scope N_scope.
Local Open Scope model_scope.

Lemma firstn_app_eq {A} n (a x y : list A) : firstn n (a ++ x) = firstn n (a ++ y) <-> firstn (n - List.length a) x = firstn (n - List.length a) y.
Proof. rewrite !firstn_app. split; [apply app_inv_head|intro H; now rewrite H]. Qed.
Lemma firstn_same {A} n (a x y : list A) : (n <= List.length a)%nat -> firstn n (a ++ x) = firstn n (a ++ y).
Proof. intro H. apply firstn_app_eq. replace (n - List.length a)%nat with O by lia. reflexivity. Qed.
Lemma corrects_same n a b (x y : list Trace) : (n <= a)%nat -> (n <= b)%nat -> firstn n (repeat Correct a ++ x) = firstn n (repeat Correct b ++ y).
Proof.
  intros HA HB. replace a with (n + (a - n))%nat by lia. replace b with (n + (b - n))%nat by lia. rewrite !repeat_app, <- !app_assoc.
  apply firstn_same. rewrite repeat_length. lia.
Qed.
Lemma firstn_cons_eq {A} n (a x y : list A) c d : (List.length a < n)%nat -> firstn n (a ++ c :: x) = firstn n (a ++ d :: y) ->
  c = d /\ firstn (n - S (List.length a)) x = firstn (n - S (List.length a)) y.
Proof.
  intros H E. apply firstn_app_eq in E. replace (n - List.length a)%nat with (S (n - S (List.length a))) in E by lia. cbn [firstn] in E. injection E as -> E. auto.
Qed.
Lemma firstn_cons_app {A} n (a x y : list A) c : (List.length a < n)%nat -> firstn (n - S (List.length a)) x = firstn (n - S (List.length a)) y ->
  firstn n (a ++ c :: x) = firstn n (a ++ c :: y).
Proof. intros H E. apply firstn_app_eq. replace (n - List.length a)%nat with (S (n - S (List.length a))) by lia. cbn [firstn]. now rewrite E. Qed.

(** Two ways to split one list: the same place, or one behind the other. *)
Lemma splits {A} (a b : list A) x y u v : a ++ x :: u = b ++ y :: v ->
  (a = b /\ x = y) \/ (exists m, b = a ++ x :: m) \/ (exists m, a = b ++ y :: m).
Proof.
  revert b. induction a as [|p a IH]; intros [|q b] E; cbn [app] in E.
  - injection E as -> _. auto.
  - injection E as -> E. right. left. exists b. reflexivity.
  - injection E as -> E. right. right. exists a. reflexivity.
  - injection E as -> E. destruct (IH b E) as [[-> ->]|[[m ->]|[m ->]]]; [auto|right; left; exists m; reflexivity|right; right; exists m; reflexivity].
Qed.

Section Choice.
  Context (w : list N) (lim : option N) (choice : list (nat * N) -> nat -> list Code -> Prop)
          (fun_choice : forall runs pos a b, choice runs pos a -> choice runs pos b -> a = b).

  Lemma traced_in_step runs pos codes hints : traced w lim choice runs pos codes hints -> forall codes' hints' n,
    traced w lim choice runs pos codes' hints' -> firstn n codes = firstn n codes' -> firstn n hints = firstn n hints'.
  Proof.
    induction 1 as [runs pos codes HP|runs pos gs codes hints HP HC HT IH|runs pos right g more c codes hints HP HC NE HT IH]; intros codes' hints' n T E;
      destruct T as [runs pos codes' HP'|runs pos gs' codes' hints' HP' HC' HT'|runs pos right' g' more' c' codes' hints' HP' HC' NE' HT']; try (exfalso; lia).
    - reflexivity.
    - assert (gs' = gs) by eauto. subst gs'. apply firstn_app_eq. rewrite repeat_length. apply (IH _ _ _ HT'). now apply firstn_app_eq in E.
    - assert (gs = right' ++ g' :: more') by eauto. subst gs. destruct (Nat.le_gt_cases n (List.length right')) as [L|L].
      + apply corrects_same; [rewrite app_length; lia|exact L].
      + rewrite <- app_assoc in E. cbn [app] in E. apply firstn_cons_eq in E; [|exact L]. tauto.
    - assert (gs' = right ++ g :: more) by eauto. subst gs'. destruct (Nat.le_gt_cases n (List.length right)) as [L|L].
      + apply corrects_same; [exact L|rewrite app_length; lia].
      + rewrite <- app_assoc in E. cbn [app] in E. apply firstn_cons_eq in E; [|exact L]. destruct E. congruence.
    - assert (EG := fun_choice _ _ _ _ HC HC'). destruct (splits _ _ _ _ _ _ EG) as [[-> ->]|[[m ->]|[m ->]]].
      + destruct (Nat.le_gt_cases n (List.length right')) as [L|L]; [now apply corrects_same|]. destruct (firstn_cons_eq _ _ _ _ _ _ L E) as [-> E'].
        replace (List.length right') with (List.length (repeat Correct (List.length right'))) in L, E' by apply repeat_length.
        apply firstn_cons_app; [exact L|]. exact (IH _ _ _ HT' E').
      + destruct (Nat.le_gt_cases n (List.length right)) as [L|L]; [apply corrects_same; [exact L|rewrite app_length; lia]|].
        rewrite <- app_assoc in E. cbn [app] in E. apply firstn_cons_eq in E; [|exact L]. destruct E. congruence.
      + destruct (Nat.le_gt_cases n (List.length right')) as [L|L]; [apply corrects_same; [rewrite app_length; lia|exact L]|].
        rewrite <- app_assoc in E. cbn [app] in E. apply firstn_cons_eq in E; [|exact L]. destruct E. congruence.
  Qed.

  Lemma corrects_then n k (x y : list Trace) h a : (k < n)%nat -> (k < a)%nat -> firstn n (repeat Correct k ++ h :: x) = firstn n (repeat Correct a ++ y) -> h = Correct.
  Proof.
    intros H1 H2 E. replace a with (k + S (a - S k))%nat in E by lia. rewrite repeat_app, <- app_assoc in E. cbn [repeat app] in E.
    apply firstn_cons_eq in E; [tauto|rewrite repeat_length; lia].
  Qed.
  Lemma stands_fun data pos h c c' : stands_for data pos h c -> stands_for data pos h c' -> c = c'.
  Proof. destruct h; cbn [stands_for]; [tauto| |congruence]. intros (b & E & ->) (b' & E' & ->). congruence. Qed.

  Lemma restored_in_step data runs pos hints codes : restored w lim choice data runs pos hints codes -> forall hints' codes' n,
    restored w lim choice data runs pos hints' codes' -> firstn n hints = firstn n hints' -> firstn n codes = firstn n codes'.
  Proof.
    induction 1 as [runs pos hints HP|runs pos gs hints codes HP HC HT IH|runs pos right g more h c hints codes HP HC HS HT IH]; intros hints' codes' n T E;
      destruct T as [runs pos hints' HP'|runs pos gs' hints' codes' HP' HC' HT'|runs pos right' g' more' h' c' hints' codes' HP' HC' HS' HT']; try (exfalso; lia).
    - reflexivity.
    - assert (gs' = gs) by eauto. subst gs'. apply firstn_app_eq. apply (IH _ _ _ HT'). apply firstn_app_eq in E. now rewrite repeat_length in E.
    - assert (gs = right' ++ g' :: more') by eauto. subst gs. destruct (Nat.le_gt_cases n (List.length right')) as [L|L].
      + rewrite <- app_assoc. now apply firstn_same.
      + symmetry in E. apply corrects_then in E; [subst h'; destruct HS'|exact L|rewrite app_length; cbn [List.length]; lia].
    - assert (gs' = right ++ g :: more) by eauto. subst gs'. destruct (Nat.le_gt_cases n (List.length right)) as [L|L].
      + rewrite <- app_assoc. now apply firstn_same.
      + apply corrects_then in E; [subst h; destruct HS|exact L|rewrite app_length; cbn [List.length]; lia].
    - assert (EG := fun_choice _ _ _ _ HC HC'). destruct (splits _ _ _ _ _ _ EG) as [[-> ->]|[[m ->]|[m ->]]].
      + destruct (Nat.le_gt_cases n (List.length right')) as [L|L]; [now apply firstn_same|].
        destruct (firstn_cons_eq n (repeat Correct (List.length right')) _ _ _ _ ltac:(rewrite repeat_length; exact L) E) as [-> E']. rewrite repeat_length in E'.
        assert (c = c') by (eapply stands_fun; eassumption). subst c'. apply firstn_cons_app; [exact L|]. exact (IH _ _ _ HT' E').
      + destruct (Nat.le_gt_cases n (List.length right)) as [L|L]; [rewrite <- app_assoc; now apply firstn_same|].
        apply corrects_then in E; [subst h; destruct HS|exact L|rewrite app_length; cbn [List.length]; lia].
      + destruct (Nat.le_gt_cases n (List.length right')) as [L|L]; [rewrite <- app_assoc; now apply firstn_same|].
        symmetry in E. apply corrects_then in E; [subst h'; destruct HS'|exact L|rewrite app_length; cbn [List.length]; lia].
  Qed.

  (** Codes whose literals are the bytes of the text follow from their hints, the literals being looked up where they belong. *)
  Lemma traced_restored runs pos codes hints : traced w lim choice runs pos codes hints ->
    (pos + codes_len codes = List.length w)%nat ->
    (forall a b c, codes = a ++ Literal b :: c -> nth_error w (pos + codes_len a) = Some b) ->
    restored w lim choice w runs pos hints codes.
  Proof.
    induction 1 as [runs pos codes HP|runs pos gs codes hints HP HC HT IH|runs pos right g more c codes hints HP HC NE HT IH]; intros L B.
    - destruct codes as [|x codes]; [now apply rs_end|]. assert (X := codes_len_pos x codes). lia.
    - apply rs_right; [exact HP|exact HC|]. apply IH; [rewrite codes_len_app in L; lia|]. intros a b c ->. rewrite <- Nat.add_assoc, <- codes_len_app. apply (B (gs ++ a) b c). now rewrite <- app_assoc.
    - eapply rs_wrong; [exact HP|exact HC| |apply IH].
      + destruct c as [b|r]; cbn [instead stands_for]; [|reflexivity]. exists b. split; [|reflexivity]. exact (B right b codes eq_refl).
      + change (right ++ c :: codes) with (right ++ [c] ++ codes) in L. rewrite app_assoc, codes_len_app in L. lia.
      + intros a b c0 ->. rewrite <- Nat.add_assoc, <- codes_len_app. apply (B ((right ++ [c]) ++ a) b c0). rewrite <- !app_assoc. reflexivity.
  Qed.
End Choice.

Lemma choice_once preroll data limit config runs pos a b :
  choice_of (preroll ++ data) config limit runs pos a -> choice_of (preroll ++ data) config limit runs pos b -> a = b.
Proof.
  destruct (with_sixteen_ok preroll data limit) as (refs & EW & _). destruct (made config _ _ _ _ EW) as (_ & _ & _ & <- & _).
  exact (choice_fun (preroll ++ data) (mkTechnique config refs) runs pos a b).
Qed.

Lemma C107_lemma_trace : forall config preroll data limit refs codes codes' hints hints' n, bytes_ok preroll -> bytes_ok data ->
  with_sixteen preroll data limit = Ok refs ->
  trace codes (mkTechnique config refs) = Ok hints -> trace codes' (mkTechnique config refs) = Ok hints' ->
  firstn n codes = firstn n codes' -> firstn n hints = firstn n hints'.
Proof.
  intros config preroll data limit refs codes codes' hints hints' n B1 B2 EW T T'. apply (C91_lemma_trace config _ _ _ refs _ _ B1 B2 EW) in T, T'.
  exact (traced_in_step _ _ _ (choice_once preroll data limit config) _ _ _ _ T _ _ n T').
Qed.

Lemma C107_lemma_restore : forall config preroll data limit refs codes codes' hints hints' n, bytes_ok preroll -> bytes_ok data ->
  with_sixteen preroll data limit = Ok refs ->
  restore hints (mkTechnique config refs) = Ok codes -> restore hints' (mkTechnique config refs) = Ok codes' ->
  firstn n hints = firstn n hints' -> firstn n codes = firstn n codes'.
Proof.
  intros config preroll data limit refs codes codes' hints hints' n B1 B2 EW T T'. apply (C91_lemma_restore config _ _ _ refs _ _ B1 B2 EW) in T, T'.
  exact (restored_in_step _ _ _ (choice_once preroll data limit config) _ _ _ _ _ T _ _ n T').
Qed.

Lemma encoded_literals preroll data a b c : encodes preroll data (a ++ Literal b :: c) -> nth_error (preroll ++ data) (List.length preroll + codes_len a) = Some b.
Proof.
  unfold encodes. rewrite lz_decode_app. intro E. destruct (lz_decode 32768 preroll a) as [h|] eqn:EA; [|discriminate]. cbn [lz_decode] in E.
  destruct (lz_decode_grows _ _ _ _ E) as (d & ED). rewrite ED. apply lz_decode_length in EA. rewrite emitted_codes_len in EA. rewrite <- EA, <- app_assoc.
  rewrite nth_error_app2, Nat.sub_diag by lia. reflexivity.
Qed.

Lemma C107_lemma_same : forall config preroll data limit refs codes codes' hints hints' n, bytes_ok preroll -> bytes_ok data ->
  with_sixteen preroll data limit = Ok refs -> encodes preroll data codes -> encodes preroll data codes' ->
  trace codes (mkTechnique config refs) = Ok hints -> trace codes' (mkTechnique config refs) = Ok hints' ->
  (firstn n codes = firstn n codes' <-> firstn n hints = firstn n hints').
Proof.
  intros config preroll data limit refs codes codes' hints hints' n B1 B2 EW EC EC' T T'. split; [exact (C107_lemma_trace config preroll data limit refs codes codes' hints hints' n B1 B2 EW T T')|].
  apply (C91_lemma_trace config _ _ _ refs _ _ B1 B2 EW) in T, T'.
  assert (K : forall cs hs, encodes preroll data cs -> traced (preroll ++ data) (insert_only_below_length (cfg_wams config)) (choice_of (preroll ++ data) config limit) [] (List.length preroll) cs hs ->
    restored (preroll ++ data) (insert_only_below_length (cfg_wams config)) (choice_of (preroll ++ data) config limit) (preroll ++ data) [] (List.length preroll) hs cs).
  { intros cs hs E H. apply (traced_restored _ _ _ (choice_once preroll data limit config)); [exact H| |].
    - unfold encodes in E. apply lz_decode_length in E. rewrite emitted_codes_len in E. lia.
    - intros a b c ->. exact (encoded_literals _ _ _ _ _ E). }
  exact (restored_in_step _ _ _ (choice_once preroll data limit config) _ _ _ _ _ (K _ _ EC T) _ _ n (K _ _ EC' T')).
Qed.
