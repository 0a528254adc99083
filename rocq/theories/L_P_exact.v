(** Proofs of C91: which hints tracing gives, and which codes restoring gives, exactly. *)
From Verif Require Import Base M_bit M_lib M_all_refs M_technique M_trace Spec Clients Spec_encoder Clients_encoder Clients_exact
  L_bits L_ring L_search L_P_search L_tech L_P_tech L_trace L_strace L_P_trace L_P_encoder.
From Coq Require Import ZArith ZifyBool ZifyNat ZifyN.
Ltac Zify.zify_post_hook ::= Z.div_mod_to_equations.
Local Open Scope N_scope.
Local Open Scope model_scope.

Lemma shared_all gs codes : shared_prefix gs (gs ++ codes) = (gs, codes).
Proof.
  induction gs as [|g gs IH]; [reflexivity|]. cbn [app shared_prefix]. assert (X : Code_eqb g g = true) by now apply Code_eqb_spec. rewrite X, IH. reflexivity.
Qed.
Lemma shared_some right g more c codes : g <> c -> shared_prefix (right ++ g :: more) (right ++ c :: codes) = (right, c :: codes).
Proof.
  intro NE. induction right as [|x right IH]; cbn [app shared_prefix].
  - destruct (Code_eqb c g) eqn:E; [apply Code_eqb_spec in E; congruence|reflexivity].
  - assert (X : Code_eqb x x = true) by now apply Code_eqb_spec. rewrite X, IH. reflexivity.
Qed.

Lemma corrects_map (m : list Code) : map (fun _ => Correct) m = repeat Correct (List.length m).
Proof. induction m as [|x m IH]; [reflexivity|]. cbn [map List.length repeat]. now rewrite IH. Qed.

Lemma obind_step {A B} (o : outcome A) (k : A -> outcome B) x : o = Ok x -> obind o k = k x.
Proof. now intros ->. Qed.

Lemma obind_ok {A B} (o : outcome A) (k : A -> outcome B) y : obind o k = Ok y -> exists x, o = Ok x /\ k x = Ok y.
Proof. destruct o; cbn [obind]; intro E; try discriminate E. eauto. Qed.

Section Technique.
  Context (w : list N) (t : Technique) (R : refs_of w (t_refs t)) (HB : bytes_ok w).
  Let c := t_config t.
  Let lim := insert_only_below_length (cfg_wams c).
  Let choice := choice_of w c (ar_limit (t_refs t)).

  Lemma guesses s : (sc_pos s < List.length w)%nat ->
    exists gs, sc_codes t s = Ok gs /\ choice (sc_obscured s) (sc_pos s) gs /\ gs <> [].
  Proof.
    intro HP. destruct (choice_spec w t R (sc_obscured s) (sc_pos s) HP) as (gs & E & H). exists gs. split; [exact E|]. split; [exact H|].
    destruct (guess_ok w t (cfg_lookahead (t_config t)) (sc_obscured s) (sc_pos s) R HB HP) as (gs' & k & E' & HN & _). congruence.
  Qed.

  Lemma chosen s gs : (sc_pos s < List.length w)%nat -> choice (sc_obscured s) (sc_pos s) gs -> sc_codes t s = Ok gs /\ gs <> [].
  Proof.
    intros HP HC. destruct (guesses s HP) as (gs' & E & H & HN). rewrite (choice_fun w t _ _ _ _ HC H). auto.
  Qed.

  Lemma codes_len_app a b : codes_len (a ++ b) = (codes_len a + codes_len b)%nat.
  Proof. rewrite <- !emitted_codes_len. apply emitted_app. Qed.
  Lemma codes_len_pos x cs : (1 <= codes_len (x :: cs))%nat.
  Proof. rewrite <- emitted_codes_len. apply emitted_pos. Qed.

  Lemma feedback_snoc right x s : feedback t (fold_left (feedback t) right s) x = fold_left (feedback t) (right ++ [x]) s.
  Proof. now rewrite fold_left_app. Qed.

  (** ** Tracing *)
  Lemma traced_runs ob pos codes hints : traced w lim choice ob pos codes hints ->
    forall fuel, (List.length w - pos < fuel)%nat -> trace_loop fuel t (mkScanner ob pos) codes = Ok hints.
  Proof.
    induction 1 as [ob pos codes HP|ob pos gs codes hints HP HC HT IH|ob pos right g more x codes hints HP HC NE HT IH]; intros [|fuel] HF; try lia; cbn [trace_loop];
      rewrite (more_data_spec w t _ R); cbn [sc_pos].
    - destruct (Nat.ltb_spec pos (List.length w)); [lia|reflexivity].
    - destruct (Nat.ltb_spec pos (List.length w)); [|lia]. destruct (chosen (mkScanner ob pos) gs HP HC) as [E HN]. rewrite E. cbn [obind].
      destruct gs as [|g0 gs0] eqn:EG; [congruence|]. rewrite <- EG in *. rewrite shared_all, Nat.eqb_refl, feedback_runs. cbn [sc_obscured sc_pos].
      rewrite IH; [|assert (X := codes_len_pos g0 gs0); rewrite <- EG in X; lia]. cbn [obind]. now rewrite corrects_map.
    - destruct (Nat.ltb_spec pos (List.length w)); [|lia]. destruct (chosen (mkScanner ob pos) _ HP HC) as [E HN]. rewrite E. cbn [obind].
      destruct (right ++ g :: more) as [|g0 gs0] eqn:EG; [congruence|]. rewrite <- EG in *. rewrite (shared_some _ _ _ _ _ NE).
      destruct (Nat.eqb_spec (List.length right) (List.length (right ++ g :: more))) as [EL|_]; [rewrite app_length in EL; cbn [List.length] in EL; lia|].
      rewrite feedback_snoc, feedback_runs. cbn [sc_obscured sc_pos]. fold c. fold lim.
      rewrite IH; [|assert (X := codes_len_pos x []); rewrite codes_len_app; lia]. cbn [obind]. rewrite corrects_map. destruct x; reflexivity.
  Qed.

  Lemma trace_runs fuel : forall s codes, (List.length w - sc_pos s < fuel)%nat ->
    (exists hints, trace_loop fuel t s codes = Ok hints /\ traced w lim choice (sc_obscured s) (sc_pos s) codes hints)
    \/ trace_loop fuel t s codes = Panic "the guesser guessed more than there actually are?".
  Proof.
    induction fuel as [|fuel IH]; intros s codes HF; [lia|]. cbn [trace_loop]. rewrite (more_data_spec w t s R).
    destruct (Nat.ltb_spec (sc_pos s) (List.length w)) as [HP|HP]; [|left; exists []; split; [reflexivity|now apply tr_end]].
    destruct (guesses s HP) as (gs & E & HC & HN). rewrite E. cbn [obind]. destruct gs as [|g0 gs0] eqn:EG; [congruence|]. rewrite <- EG in *.
    destruct (shared_prefix gs codes) as [m rest] eqn:ES. destruct (shared_prefix_spec _ _ _ _ ES) as (more & E1 & E2 & HX). subst codes. rewrite corrects_map.
    destruct more as [|g more].
    - rewrite app_nil_r in E1. subst m. rewrite Nat.eqb_refl, feedback_runs.
      edestruct (IH (mkScanner (sc_obscured s ++ long_runs lim (sc_pos s) gs) (sc_pos s + codes_len gs)) rest) as [(hints & EH & HT)|EP].
      + cbn [sc_pos]. assert (X := codes_len_pos g0 gs0). rewrite <- EG in X. lia.
      + left. exists (repeat Correct (List.length gs) ++ hints). unfold lim, c in EH. rewrite EH. split; [reflexivity|]. now apply tr_right.
      + right. unfold lim, c in EP. now rewrite EP.
    - destruct (Nat.eqb_spec (List.length m) (List.length gs)) as [EL|_]; [rewrite E1, app_length in EL; cbn [List.length] in EL; lia|].
      destruct rest as [|x rest]; [right; reflexivity|]. rewrite feedback_snoc, feedback_runs.
      edestruct (IH (mkScanner (sc_obscured s ++ long_runs lim (sc_pos s) (m ++ [x])) (sc_pos s + codes_len (m ++ [x]))) rest) as [(hints & EH & HT)|EP].
      + cbn [sc_pos]. assert (X := codes_len_pos x []). rewrite codes_len_app. lia.
      + left. exists (repeat Correct (List.length m) ++ instead x :: hints). unfold lim, c in EH. rewrite EH. split; [destruct x; reflexivity|].
        rewrite E1 in HC. eapply tr_wrong; eassumption.
      + right. unfold lim, c in EP. now rewrite EP.
  Qed.

  (** ** Restoring *)
  Lemma restore_matched' m more s tr :
    restore_guesses t (m ++ more) s (repeat Correct (List.length m) ++ tr) =
    obind (restore_guesses t more (fold_left (feedback t) m s) tr) (fun r => let '(l, s'', tr'') := r in Ok (m ++ l, s'', tr'')).
  Proof. rewrite <- corrects_map. apply restore_matched. Qed.

  Lemma restored_runs ob pos hints codes : restored w lim choice (ar_data (t_refs t)) ob pos hints codes ->
    forall fuel, (List.length w - pos < fuel)%nat -> restore_loop fuel t (mkScanner ob pos) hints = Ok codes.
  Proof.
    induction 1 as [ob pos hints HP|ob pos gs hints codes HP HC HT IH|ob pos right g more h x hints codes HP HC HS HT IH]; intros [|fuel] HF; try lia; cbn [restore_loop];
      rewrite (more_data_spec w t _ R); cbn [sc_pos].
    - destruct (Nat.ltb_spec pos (List.length w)); [lia|reflexivity].
    - destruct (Nat.ltb_spec pos (List.length w)); [|lia]. destruct (chosen (mkScanner ob pos) gs HP HC) as [E HN]. rewrite E. cbn [obind].
      destruct gs as [|g0 gs0] eqn:EG; [congruence|]. rewrite <- EG in *. assert (RM := restore_matched' gs [] (mkScanner ob pos) hints). rewrite app_nil_r in RM.
      rewrite RM. cbn [restore_guesses obind]. rewrite app_nil_r, feedback_runs. cbn [sc_obscured sc_pos]. fold c. fold lim.
      rewrite IH; [reflexivity|]. assert (X := codes_len_pos g0 gs0). rewrite <- EG in X. lia.
    - destruct (Nat.ltb_spec pos (List.length w)); [|lia]. destruct (chosen (mkScanner ob pos) _ HP HC) as [E HN]. rewrite E. cbn [obind].
      destruct (right ++ g :: more) as [|g0 gs0] eqn:EG; [congruence|]. rewrite <- EG in *. rewrite restore_matched'. cbn [restore_guesses].
      assert (EO : forall y, match h with Correct => Ok y | Actually r => Ok (Reference r) | ActuallyLiteral => obind (byte_at t (sc_pos (fold_left (feedback t) right (mkScanner ob pos)))) (fun b => Ok (Literal b)) end = Ok x).
      { intro y. destruct h as [| |r]; cbn [stands_for] in HS; [destruct HS| |now subst x]. destruct HS as (b & EB & ->). rewrite feedback_runs. cbn [sc_pos].
        unfold byte_at, get_idx. now rewrite EB. }
      rewrite EO. cbn [obind]. rewrite feedback_snoc, feedback_runs. cbn [sc_obscured sc_pos]. fold c. fold lim.
      assert (NC : h <> Correct) by (intros ->; exact HS). assert (X := codes_len_pos x []). specialize (IH fuel ltac:(rewrite codes_len_app; lia)).
      unfold lim, c in IH.
      destruct h; [congruence| |]; cbn [obind].
      all: rewrite (obind_step _ _ _ IH); now rewrite <- app_assoc.
  Qed.

  Lemma restore_guesses_ok gs : forall s tr l s' tr', restore_guesses t gs s tr = Ok (l, s', tr') ->
    (l = gs /\ tr = repeat Correct (List.length gs) ++ tr' /\ s' = fold_left (feedback t) gs s)
    \/ exists right g more h x, gs = right ++ g :: more /\ tr = repeat Correct (List.length right) ++ h :: tr' /\ l = right ++ [x]
         /\ s' = fold_left (feedback t) (right ++ [x]) s /\ stands_for (ar_data (t_refs t)) (sc_pos s + codes_len right) h x.
  Proof.
    induction gs as [|g gs IH]; intros s tr l s' tr' E; cbn [restore_guesses] in E.
    - injection E as <- <- <-. left. auto.
    - destruct tr as [|h tr]; [discriminate E|]. apply obind_ok in E. destruct E as (x & EO & E). destruct h as [| |r].
      + injection EO as <-. apply obind_ok in E. destruct E as ([[l0 s0] tr0] & E0 & E). injection E as <- <- <-. destruct (IH _ _ _ _ _ E0) as [(-> & -> & ->)|(right & g' & more & h & x & -> & -> & -> & -> & HS)].
        * left. auto.
        * right. exists (g :: right), g', more, h, x. rewrite feedback_pos in HS. repeat split. unfold codes_len in *. cbn [map list_sum fold_right].
          assert (EL : N.to_nat (emitted_bytes g) = code_len g) by (destruct g; reflexivity). rewrite EL in HS. now rewrite Nat.add_assoc.
      + apply obind_ok in EO. destruct EO as (b & EB & EO). injection EO as <-. injection E as <- <- <-. right. exists [], g, gs, ActuallyLiteral, (Literal b). repeat split.
        cbn [stands_for]. exists b. split; [|reflexivity]. unfold codes_len. cbn [map list_sum fold_right]. rewrite Nat.add_0_r. unfold byte_at, get_idx in EB. destruct (nth_error _ _); [congruence|discriminate EB].
      + injection EO as <-. injection E as <- <- <-. right. exists [], g, gs, (Actually r), (Reference r). repeat split.
  Qed.

  Lemma restore_runs fuel : forall s hints codes, restore_loop fuel t s hints = Ok codes ->
    restored w lim choice (ar_data (t_refs t)) (sc_obscured s) (sc_pos s) hints codes.
  Proof.
    induction fuel as [|fuel IH]; intros s hints codes E; cbn [restore_loop] in E; [discriminate E|]. rewrite (more_data_spec w t s R) in E.
    destruct (Nat.ltb_spec (sc_pos s) (List.length w)) as [HP|HP]; [|injection E as <-; now apply rs_end].
    destruct (guesses s HP) as (gs & EG & HC & HN). rewrite EG in E. cbn [obind] in E. destruct gs as [|g0 gs0] eqn:EQ; [congruence|]. rewrite <- EQ in *.
    apply obind_ok in E. destruct E as ([[l s'] tr'] & ER & E). apply obind_ok in E. destruct E as (rest & EL & E). injection E as <-. apply IH in EL.
    destruct (restore_guesses_ok _ _ _ _ _ _ ER) as [(-> & -> & ->)|(right & g & more & h & x & E1 & -> & -> & -> & HS)]; rewrite feedback_runs in EL; cbn [sc_obscured sc_pos] in EL.
    - now apply rs_right.
    - rewrite E1 in HC. rewrite <- app_assoc. cbn [app]. eapply rs_wrong; eassumption.
  Qed.
End Technique.

(** ** Properties *)
Lemma made config preroll data limit refs : with_sixteen preroll data limit = Ok refs ->
  refs_of (preroll ++ data) refs /\ sc_pos (scanner (mkTechnique config refs)) = List.length preroll /\ sc_data_len (mkTechnique config refs) = List.length (preroll ++ data)
  /\ ar_limit refs = limit /\ ar_data refs = data.
Proof.
  intro EW. destruct (technique_of config _ _ _ _ EW) as (R & EP & EL & _). split; [exact R|]. split; [exact EP|]. split; [exact EL|].
  destruct (with_sixteen_ok preroll data limit) as (a & E' & _ & X & _ & Y). rewrite EW in E'. injection E' as <-. auto.
Qed.

Lemma C91_lemma_trace : forall config preroll data limit refs codes hints,
  bytes_ok preroll -> bytes_ok data -> with_sixteen preroll data limit = Ok refs ->
  (trace codes (mkTechnique config refs) = Ok hints
   <-> traced (preroll ++ data) (insert_only_below_length (cfg_wams config)) (choice_of (preroll ++ data) config limit) [] (List.length preroll) codes hints).
Proof.
  intros config preroll data limit refs codes hints B1 B2 EW. destruct (made config _ _ _ _ EW) as (R & EP & EL & ELI & ED).
  assert (HB : bytes_ok (preroll ++ data)) by now apply Forall_app. set (t := mkTechnique config refs) in *.
  change refs with (t_refs t) in R, ELI. rewrite <- ELI. change config with (t_config t). rewrite <- EP. unfold trace.
  assert (HF : (List.length (preroll ++ data) - sc_pos (scanner t) < S (sc_data_len t))%nat) by (rewrite EL; lia). split.
  - intro E. destruct (trace_runs _ t R HB _ (scanner t) codes HF) as [(h & E' & HT)|E']; rewrite E in E'; [|discriminate E']. injection E' as <-. exact HT.
  - intro HT. apply (traced_runs _ t R HB _ _ _ _ HT _ HF).
Qed.

Lemma C91_lemma_fails : forall config preroll data limit refs codes,
  bytes_ok preroll -> bytes_ok data -> with_sixteen preroll data limit = Ok refs ->
  (exists hints, trace codes (mkTechnique config refs) = Ok hints)
  \/ trace codes (mkTechnique config refs) = Panic "the guesser guessed more than there actually are?".
Proof.
  intros config preroll data limit refs codes B1 B2 EW. destruct (made config _ _ _ _ EW) as (R & EP & EL & ELI & ED).
  assert (HB : bytes_ok (preroll ++ data)) by now apply Forall_app. set (t := mkTechnique config refs) in *. change refs with (t_refs t) in R. unfold trace.
  destruct (trace_runs _ t R HB (S (sc_data_len t)) (scanner t) codes) as [(h & E' & HT)|E']; [rewrite EL; lia| |]; eauto.
Qed.

Lemma C91_lemma_restore : forall config preroll data limit refs codes hints,
  bytes_ok preroll -> bytes_ok data -> with_sixteen preroll data limit = Ok refs ->
  (restore hints (mkTechnique config refs) = Ok codes
   <-> restored (preroll ++ data) (insert_only_below_length (cfg_wams config)) (choice_of (preroll ++ data) config limit) data [] (List.length preroll) hints codes).
Proof.
  intros config preroll data limit refs codes hints B1 B2 EW. destruct (made config _ _ _ _ EW) as (R & EP & EL & ELI & ED).
  assert (HB : bytes_ok (preroll ++ data)) by now apply Forall_app. set (t := mkTechnique config refs) in *.
  change refs with (t_refs t) in R, ELI, ED. rewrite <- ELI. change config with (t_config t). rewrite <- EP. unfold restore.
  replace (restored (preroll ++ data) (insert_only_below_length (cfg_wams (t_config t))) (choice_of (preroll ++ data) (t_config t) (ar_limit (t_refs t))) data)
    with (restored (preroll ++ data) (insert_only_below_length (cfg_wams (t_config t))) (choice_of (preroll ++ data) (t_config t) (ar_limit (t_refs t))) (ar_data (t_refs t))) by now rewrite ED. split.
  - intro E. apply (restore_runs _ t R HB) in E. exact E.
  - intro HT. apply (restored_runs _ t R HB _ _ _ _ HT). rewrite EL. lia.
Qed.

Lemma C91_lemma_one_trace : forall config preroll data limit codes hints hints', bytes_ok preroll -> bytes_ok data ->
  traced (preroll ++ data) (insert_only_below_length (cfg_wams config)) (choice_of (preroll ++ data) config limit) [] (List.length preroll) codes hints ->
  traced (preroll ++ data) (insert_only_below_length (cfg_wams config)) (choice_of (preroll ++ data) config limit) [] (List.length preroll) codes hints' ->
  hints = hints'.
Proof.
  intros config preroll data limit codes hints hints' B1 B2 H H'. destruct (with_sixteen_ok preroll data limit) as (refs & EW & _).
  apply (C91_lemma_trace config _ _ _ refs _ _ B1 B2 EW) in H, H'. congruence.
Qed.

Lemma C91_lemma_one_restore : forall config preroll data limit hints codes codes', bytes_ok preroll -> bytes_ok data ->
  restored (preroll ++ data) (insert_only_below_length (cfg_wams config)) (choice_of (preroll ++ data) config limit) data [] (List.length preroll) hints codes ->
  restored (preroll ++ data) (insert_only_below_length (cfg_wams config)) (choice_of (preroll ++ data) config limit) data [] (List.length preroll) hints codes' ->
  codes = codes'.
Proof.
  intros config preroll data limit hints codes codes' B1 B2 H H'. destruct (with_sixteen_ok preroll data limit) as (refs & EW & _).
  apply (C91_lemma_restore config _ _ _ refs _ _ B1 B2 EW) in H, H'. congruence.
Qed.
