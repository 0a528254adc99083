(** Proof that a trace determines the codes (C40). *)
From Verif Require Import Base M_bit M_lib M_all_refs M_technique M_trace Spec Clients
  L_P_e2e L_search L_ring L_tech L_trace L_P_trace.
From Coq Require Import ZArith ZifyBool ZifyNat ZifyN.
Ltac Zify.zify_post_hook ::= Z.div_mod_to_equations.
Local Open Scope N_scope.
Local Open Scope model_scope.

(** With equal traces the same number of guesses was right in each round, unless the codes differ there. *)
Lemma corrects_prefix (m1 m2 : list Code) tr1 tr2 :
  (forall h tr, tr1 <> h :: tr \/ h <> Correct) -> map (fun _ => Correct) m1 ++ tr1 = map (fun _ => Correct) m2 ++ tr2 -> (List.length m2 <= List.length m1)%nat.
Proof.
  intros H E. destruct (Nat.le_gt_cases (List.length m2) (List.length m1)) as [|L]; [assumption|exfalso].
  assert (X := f_equal (skipn (List.length m1)) E). rewrite skipn_app, map_length, Nat.sub_diag, skipn_O, skipn_all2 in X by (rewrite map_length; lia). cbn [app] in X.
  assert (E2 : map (fun _ : Code => Correct) m2 = map (fun _ => Correct) (firstn (List.length m1) m2) ++ map (fun _ => Correct) (skipn (List.length m1) m2)) by (rewrite <- map_app, firstn_skipn; reflexivity).
  rewrite E2, <- app_assoc, skipn_app in X. rewrite map_length, firstn_length, Nat.min_l, Nat.sub_diag, skipn_O in X by lia.
  rewrite skipn_all2 in X by (rewrite map_length, firstn_length; lia). cbn [app] in X.
  destruct (skipn (List.length m1) m2) as [|c m] eqn:ES; [assert (Y := f_equal (@List.length _) ES); rewrite skipn_length in Y; cbn [List.length] in Y; lia|].
  cbn [map app] in X. destruct (H Correct (map (fun _ => Correct) m ++ tr2)) as [Y|Y]; [now apply Y|now apply Y].
Qed.

Lemma hint_of_codes w pos c1 c2 cs1 cs2 : finishes w pos (c1 :: cs1) -> finishes w pos (c2 :: cs2) -> hint_of c1 = hint_of c2 -> c1 = c2.
Proof.
  intros F1 F2 E. destruct c1 as [b1|r1], c2 as [b2|r2]; cbn [hint_of] in E; try discriminate.
  - apply finishes_lit in F1. apply finishes_lit in F2. congruence.
  - congruence.
Qed.

Lemma same_trace w t : refs_of w (t_refs t) -> bytes_ok w ->
  forall fuel s codes1 codes2 tr, finishes w (sc_pos s) codes1 -> finishes w (sc_pos s) codes2 -> (List.length w - sc_pos s < fuel)%nat ->
  trace_loop fuel t s codes1 = Ok tr -> trace_loop fuel t s codes2 = Ok tr -> codes1 = codes2.
Proof.
  intros R HB. assert (EMP : forall pos cs, finishes w pos cs -> (List.length w <= pos)%nat -> cs = []).
  { intros pos [|c cs] F L; [reflexivity|]. apply finishes_emitted in F. assert (X := emitted_pos c cs). lia. }
  induction fuel as [|fuel IH]; intros s codes1 codes2 tr F1 F2 HL T1 T2; [lia|]. cbn [trace_loop] in *.
  assert (MD := more_data_spec w t s R). destruct (more_data t s) eqn:EM; symmetry in MD.
  2: { apply Nat.ltb_ge in MD. rewrite (EMP _ _ F1 MD), (EMP _ _ F2 MD). reflexivity. }
  apply Nat.ltb_lt in MD. destruct (guess_ok w t (cfg_lookahead (t_config t)) (sc_obscured s) (sc_pos s) R HB MD) as (gs & k & EG & HN & HK & HD & _).
  fold (sc_codes t s) in EG. rewrite EG in *. cbn [obind] in *. destruct gs as [|g gs0] eqn:EGS; [congruence|]. rewrite <- EGS in *. clear HN.
  assert (PG : (1 <= emitted gs)%nat) by (rewrite EGS; apply emitted_pos).
  destruct (shared_prefix gs codes1) as [m1 rest1] eqn:ES1. destruct (shared_prefix_spec _ _ _ _ ES1) as (more1 & A1 & B1 & X1).
  destruct (shared_prefix gs codes2) as [m2 rest2] eqn:ES2. destruct (shared_prefix_spec _ _ _ _ ES2) as (more2 & A2 & B2 & X2).
  rewrite B1 in F1. rewrite B2 in F2. destruct (finishes_app _ _ _ _ F1) as [_ G1]. destruct (finishes_app _ _ _ _ F2) as [_ G2].
  assert (LM : forall m more, gs = m ++ more -> Nat.eqb (List.length m) (List.length gs) = match more with [] => true | _ => false end).
  { intros m more ->. rewrite app_length. destruct more; cbn [List.length]; [apply Nat.eqb_eq|apply Nat.eqb_neq]; lia. }
  rewrite (LM _ _ A1) in T1. rewrite (LM _ _ A2) in T2. clear LM.
  assert (PF : forall m c, sc_pos (feedback t (fold_left (feedback t) m s) c) = (sc_pos s + emitted m + emitted [c])%nat).
  { intros m c. rewrite feedback_pos, feedback_fold_pos. cbn [emitted]. lia. }
  assert (SAME : m1 = m2 -> codes1 = codes2).
  { intros <-. assert (more1 = more2) by (rewrite A1 in A2; now apply app_inv_head in A2). subst more2. rewrite B1, B2. f_equal. destruct more1 as [|x more1].
    - apply obind_ok in T1. destruct T1 as (tr1 & T1 & E1). apply obind_ok in T2. destruct T2 as (tr2 & T2 & E2). injection E1 as <-. injection E2 as E2.
      apply app_inv_head in E2. subst tr2. rewrite app_nil_r in A1. subst m1. apply (IH (fold_left (feedback t) gs s) _ _ tr1); [now rewrite feedback_fold_pos..| |assumption|assumption].
      rewrite feedback_fold_pos. lia.
    - destruct rest1 as [|c1 rest1]; [discriminate|]. destruct rest2 as [|c2 rest2]; [discriminate|].
      apply obind_ok in T1. destruct T1 as (tr1 & T1 & E1). apply obind_ok in T2. destruct T2 as (tr2 & T2 & E2). injection E1 as <-. injection E2 as E2.
      apply app_inv_head in E2. injection E2 as E2 E3. subst tr2. assert (EC : c1 = c2) by (symmetry; exact (hint_of_codes _ _ _ _ _ _ G2 G1 E2)). subst c2. f_equal.
      assert (P1 := emitted_pos c1 []).
      change (c1 :: rest1) with ([c1] ++ rest1) in G1. change (c1 :: rest2) with ([c1] ++ rest2) in G2. apply finishes_app in G1. apply finishes_app in G2.
      apply (IH (feedback t (fold_left (feedback t) m1 s) c1) _ _ tr1); [rewrite PF; apply G1|rewrite PF; apply G2|rewrite PF; lia|assumption|assumption]. }
  apply SAME. clear SAME IH.
  (* both are prefixes of the guesses, so it is enough that they have the same length *)
  assert (TA : forall m more rest tr, more <> [] -> match rest with
        | [] => Panic "the guesser guessed more than there actually are?"
        | code :: codes => more0 <-? trace_loop fuel t (feedback t (fold_left (feedback t) m s) code) codes ;; Ok (map (fun _ : Code => Correct) m ++ hint_of code :: more0)
        end = Ok tr -> exists c tr', tr = map (fun _ => Correct) m ++ hint_of c :: tr' /\ (more : list Code) = more).
  { intros m more [|c rest] tr0 _ E; [discriminate|]. apply obind_ok in E. destruct E as (x & _ & E). injection E as <-. exists c, x. auto. }
  assert (NH : forall c h (tr0 : list Trace) tr', hint_of c :: tr0 <> h :: tr' \/ h <> Correct).
  { intros [b|r] h tr0 tr'; cbn [hint_of]; destruct h; first [right; discriminate|left; discriminate|left; intros [=]]. }
  assert (LE : List.length m1 = List.length m2).
  { destruct more1 as [|x1 more1]; destruct more2 as [|x2 more2].
    - rewrite app_nil_r in A1, A2. congruence.
    - apply obind_ok in T1. destruct T1 as (tr1 & _ & E1). injection E1 as <-.
      destruct (TA m2 (x2 :: more2) rest2 _ ltac:(discriminate) T2) as (c & tr' & E & _). symmetry in E.
      assert (L := corrects_prefix _ _ _ _ (fun h tr0 => NH c h tr' tr0) E). rewrite app_nil_r in A1. assert (Y := f_equal (@List.length _) A2). rewrite app_length in Y. cbn [List.length] in Y. subst m1. lia.
    - apply obind_ok in T2. destruct T2 as (tr2 & _ & E2). injection E2 as <-.
      destruct (TA m1 (x1 :: more1) rest1 _ ltac:(discriminate) T1) as (c & tr' & E & _). symmetry in E.
      assert (L := corrects_prefix _ _ _ _ (fun h tr0 => NH c h tr' tr0) E). rewrite app_nil_r in A2. assert (Y := f_equal (@List.length _) A1). rewrite app_length in Y. cbn [List.length] in Y. subst m2. lia.
    - destruct (TA m1 (x1 :: more1) rest1 _ ltac:(discriminate) T1) as (c1 & tr1 & E1 & _). destruct (TA m2 (x2 :: more2) rest2 _ ltac:(discriminate) T2) as (c2 & tr2 & E2 & _).
      rewrite E1 in E2. assert (L1 := corrects_prefix _ _ _ _ (fun h tr0 => NH c1 h tr1 tr0) E2). symmetry in E2. assert (L2 := corrects_prefix _ _ _ _ (fun h tr0 => NH c2 h tr2 tr0) E2). lia. }
  assert (Z : forall m more, gs = m ++ more -> m = firstn (List.length m) gs).
  { intros m more ->. rewrite firstn_app, firstn_all, Nat.sub_diag, firstn_O, app_nil_r. reflexivity. }
  rewrite (Z _ _ A1), (Z _ _ A2), LE. reflexivity.
Qed.

Lemma C40_lemma_determines : forall config preroll data limit refs codes1 codes2 hints,
  bytes_ok preroll -> bytes_ok data -> with_sixteen preroll data limit = Ok refs ->
  encodes preroll data codes1 -> encodes preroll data codes2 ->
  trace codes1 (mkTechnique config refs) = Ok hints -> trace codes2 (mkTechnique config refs) = Ok hints -> codes1 = codes2.
Proof.
  intros config preroll data limit refs codes1 codes2 hints BP BD EW E1 E2 T1 T2.
  destruct (technique_of config _ _ _ _ EW) as (R & P & L & _). apply finishes_encodes in E1. apply finishes_encodes in E2. rewrite <- P in E1, E2.
  refine (same_trace _ (mkTechnique config refs) R _ _ _ _ _ _ E1 E2 _ T1 T2); [apply Forall_app; split; assumption|rewrite P, L; lia].
Qed.
