(** Proof of C81: what a hint [Correct] stands for, for every technique. *)
From Verif Require Import Base M_bit M_lib M_all_refs M_technique M_trace Spec L_P_e2e.
From Coq Require Import ZArith ZifyBool ZifyNat ZifyN.
Local Open Scope N_scope.
Local Open Scope model_scope.

Lemma group_guessed t gs : forall s tr l s' tr', restore_guesses t gs s tr = Ok (l, s', tr') ->
  exists u, tr = u ++ tr' /\ List.length u = List.length l /\ s' = fold_left (feedback t) l s
    /\ forall k, nth_error u k = Some Correct -> forall k', (k' <= k)%nat -> nth_error u k' = Some Correct /\ nth_error l k' = nth_error gs k'.
Proof.
  induction gs as [|g gs IH]; intros s tr l s' tr' E; cbn [restore_guesses] in E.
  - injection E as <- <- <-. exists []. repeat split; destruct k; discriminate.
  - destruct tr as [|h tr]; [discriminate|]. apply obind_ok in E. destruct E as (orig & EO & E). destruct h.
    + injection EO as <-. apply obind_ok in E. destruct E as ([[l0 s0] tr0] & E0 & E). injection E as <- <- <-.
      destruct (IH _ _ _ _ _ E0) as (u & -> & EL & -> & HU). exists (Correct :: u). split; [reflexivity|]. split; [cbn [List.length]; congruence|]. split; [reflexivity|].
      intros [|k] HK [|k'] HL; cbn [nth_error] in *; auto; [lia|]. apply (HU k HK). lia.
    + injection E as <- <- <-. exists [ActuallyLiteral]. repeat split; destruct k as [|[|k]]; discriminate.
    + injection E as <- <- <-. exists [Actually r]. repeat split; destruct k as [|[|k]]; discriminate.
Qed.

Lemma loop_guessed t : forall fuel s tr codes, restore_loop fuel t s tr = Ok codes ->
  forall i c, nth_error tr i = Some Correct -> nth_error codes i = Some c ->
  exists j gs, (j <= i)%nat /\ sc_codes t (fold_left (feedback t) (firstn j codes) s) = Ok gs
    /\ forall k, (j <= k <= i)%nat -> nth_error tr k = Some Correct /\ nth_error codes k = nth_error gs (k - j).
Proof.
  intro fuel. induction fuel as [|fuel IH]; intros s tr codes E i c HT HC; [discriminate|]. cbn [restore_loop] in E.
  destruct (more_data t s); [|injection E as <-; destruct i; discriminate].
  apply obind_ok in E. destruct E as (gs & EG & E).
  assert (E' : exists l s' tr' more, restore_guesses t gs s tr = Ok (l, s', tr') /\ restore_loop fuel t s' tr' = Ok more /\ codes = l ++ more).
  { destruct gs; [discriminate|]. apply obind_ok in E. destruct E as ([[l s'] tr'] & E1 & E). apply obind_ok in E. destruct E as (more & E2 & E). injection E as <-.
    exists l, s', tr', more. auto. }
  destruct E' as (l & s' & tr' & more & E1 & E2 & ->). destruct (group_guessed _ _ _ _ _ _ _ E1) as (u & -> & EL & -> & HU).
  destruct (Nat.ltb_spec i (List.length l)) as [HI|HI].
  - exists 0%nat, gs. split; [lia|]. split; [exact EG|]. intros k HK. rewrite nth_error_app1 in HT by lia.
    rewrite nth_error_app1 by lia. rewrite nth_error_app1 by lia. rewrite Nat.sub_0_r. apply (HU i HT). lia.
  - rewrite nth_error_app2 in HT by lia. rewrite nth_error_app2 in HC by lia. rewrite EL in HT.
    destruct (IH _ _ _ E2 _ _ HT HC) as (j & gs' & HJ & EJ & HK). exists (List.length l + j)%nat, gs'. split; [lia|]. split.
    + rewrite firstn_app_2, fold_left_app. exact EJ.
    + intros k Hk. rewrite nth_error_app2 by lia. rewrite nth_error_app2 by lia. rewrite EL. replace (k - (List.length l + j))%nat with (k - List.length l - j)%nat by lia.
      apply HK. lia.
Qed.

Lemma C81_lemma_guessed : forall config preroll data limit refs hints codes i c,
  with_sixteen preroll data limit = Ok refs ->
  restore hints (mkTechnique config refs) = Ok codes -> nth_error hints i = Some Correct -> nth_error codes i = Some c ->
  exists j guess, (j <= i)%nat
    /\ sc_codes (mkTechnique config refs) (fold_left (feedback (mkTechnique config refs)) (firstn j codes) (scanner (mkTechnique config refs))) = Ok guess
    /\ forall k, (j <= k <= i)%nat -> nth_error hints k = Some Correct /\ nth_error codes k = nth_error guess (k - j).
Proof. intros config preroll data limit refs hints codes i c _ E. exact (loop_guessed (mkTechnique config refs) _ _ _ _ E i c). Qed.
