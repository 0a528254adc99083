(** Proofs of C81: exactly when restoring panics. *)
From Verif Require Import Base M_bit M_lib M_all_refs M_technique M_trace Spec Clients Clients_restore Clients_hints
  L_P_e2e L_search L_ring L_tech L_trace L_P_trace L_restore L_P_hints.
From Coq Require Import ZArith ZifyBool ZifyNat ZifyN.
Ltac Zify.zify_post_hook ::= Z.div_mod_to_equations.
Local Open Scope N_scope.
Local Open Scope model_scope.

Lemma codes_bytes_cons c cs : codes_bytes (c :: cs) = (code_bytes c + codes_bytes cs)%nat.
Proof. reflexivity. Qed.
Lemma codes_bytes_app a b : codes_bytes (a ++ b) = (codes_bytes a + codes_bytes b)%nat.
Proof. induction a as [|c a IH]; [reflexivity|]. cbn [app]. rewrite !codes_bytes_cons, IH. lia. Qed.

Lemma feedback_moves t s c : sc_pos (feedback t s c) = (sc_pos s + code_bytes c)%nat.
Proof. rewrite feedback_pos, code_bytes_emitted. reflexivity. Qed.

Section Panics.
  Context (t : Technique) (preroll data : list N).
  Context (R : refs_of (preroll ++ data) (t_refs t)) (HB : bytes_ok (preroll ++ data)) (HD : ar_data (t_refs t) = data).
  Notation w := (preroll ++ data).
  Notation none_at := (fun pos => nth_error data pos = None).

  Lemma step_correct g gs s tr : restore_guesses t (g :: gs) s (Correct :: tr)
    = r <-? restore_guesses t gs (feedback t s g) tr ;; let '(l, s'', tr'') := r in Ok (g :: l, s'', tr'').
  Proof. reflexivity. Qed.
  Lemma step_ref g gs s r tr : restore_guesses t (g :: gs) s (Actually r :: tr) = Ok ([Reference r], feedback t s (Reference r), tr).
  Proof. reflexivity. Qed.
  Lemma step_lit g gs s tr : restore_guesses t (g :: gs) s (ActuallyLiteral :: tr)
    = match nth_error data (sc_pos s) with
      | Some b => Ok ([Literal b], feedback t s (Literal b), tr)
      | None => Panic "index out of bounds"
      end.
  Proof. cbn [restore_guesses]. unfold byte_at, get_idx. rewrite HD. destruct (nth_error data (sc_pos s)); reflexivity. Qed.

  (** What a group of guesses consumes does not depend on what comes after it. *)
  Lemma group_ok gs : forall s tr l s' r, restore_guesses t gs s tr = Ok (l, s', r) ->
    exists u, tr = u ++ r /\ List.length u = List.length l /\ sc_pos s' = (sc_pos s + codes_bytes l)%nat
      /\ forall more, restore_guesses t gs s (u ++ more) = Ok (l, s', more).
  Proof.
    induction gs as [|g gs IH]; intros s tr l s' r E.
    - injection E as <- <- <-. exists []. split; [reflexivity|]. split; [reflexivity|]. split; [unfold codes_bytes; cbn [map fold_right]; lia|]. reflexivity.
    - destruct tr as [|h tr]; [discriminate|]. destruct h as [| |q].
      + rewrite step_correct in E. apply obind_ok in E. destruct E as ([[l0 s0] r0] & E0 & E). injection E as <- <- <-.
        destruct (IH _ _ _ _ _ E0) as (u & -> & L & P & M). exists (Correct :: u). split; [reflexivity|].
        split; [cbn [List.length]; lia|]. split; [rewrite P, feedback_moves, codes_bytes_cons; lia|]. intro more. cbn [app]. rewrite step_correct, M. reflexivity.
      + rewrite step_lit in E. destruct (nth_error data (sc_pos s)) as [b|] eqn:EB; [|discriminate]. injection E as <- <- <-.
        exists [ActuallyLiteral]. split; [reflexivity|]. split; [reflexivity|]. split; [rewrite feedback_moves, codes_bytes_cons; unfold codes_bytes; cbn [map fold_right]; lia|].
        intro more. cbn [app]. rewrite step_lit, EB. reflexivity.
      + rewrite step_ref in E. injection E as <- <- <-.
        exists [Actually q]. split; [reflexivity|]. split; [reflexivity|]. split; [rewrite feedback_moves, codes_bytes_cons; unfold codes_bytes; cbn [map fold_right]; lia|].
        intro more. reflexivity.
  Qed.

  (** A group that looks up a literal past the end. *)
  Lemma group_past gs : forall s tr, restore_guesses t gs s tr = Panic "index out of bounds" ->
    exists used rest, tr = used ++ ActuallyLiteral :: rest /\ restore_guesses t gs s used = Panic "not out of data"
      /\ forall more l s' r, restore_guesses t gs s (used ++ more) = Ok (l, s', r) ->
           exists l1 l2, l = l1 ++ l2 /\ List.length l1 = List.length used /\ none_at (sc_pos s + codes_bytes l1)%nat.
  Proof.
    induction gs as [|g gs IH]; intros s tr E; [discriminate|].
    destruct tr as [|h tr]; [discriminate|]. destruct h as [| |q].
    - rewrite step_correct in E. destruct (restore_guesses t gs (feedback t s g) tr) as [[[l0 s0] r0]| | |] eqn:E0; cbn [obind] in E; try discriminate.
      injection E as ->. destruct (IH _ _ E0) as (used & rest & -> & U & M). exists (Correct :: used), rest. split; [reflexivity|].
      split; [rewrite step_correct, U; reflexivity|]. intros more l s' r EM. cbn [app] in EM. rewrite step_correct in EM.
      apply obind_ok in EM. destruct EM as ([[l0 s0] r0] & E1 & EM). injection EM as <- <- <-. destruct (M _ _ _ _ E1) as (l1 & l2 & -> & L & N).
      exists (g :: l1), l2. split; [reflexivity|]. split; [cbn [List.length]; lia|]. rewrite feedback_moves in N. rewrite codes_bytes_cons, Nat.add_assoc. exact N.
    - exists [], tr. split; [reflexivity|]. split; [reflexivity|]. intros more l s' r _. exists [], l. split; [reflexivity|]. split; [reflexivity|].
      rewrite step_lit in E. unfold codes_bytes. cbn [map fold_right]. rewrite Nat.add_0_r. destruct (nth_error data (sc_pos s)); [discriminate|reflexivity].
    - discriminate.
  Qed.

  (** A group in which a literal could be asked for past the end. *)
  Lemma group_ask gs : forall s u m l s' r rest, restore_guesses t gs s (u ++ m) = Ok (l, s', r) ->
    (exists u1 u2, u = u1 ++ u2 /\ r = u2 ++ m /\ List.length u1 = List.length l)
    \/ ((List.length u < List.length l)%nat
        /\ (none_at (sc_pos s + codes_bytes (firstn (List.length u) l))%nat -> restore_guesses t gs s (u ++ ActuallyLiteral :: rest) = Panic "index out of bounds")).
  Proof.
    induction gs as [|g gs IH]; intros s u m l s' r rest E.
    - injection E as <- <- <-. left. exists [], u. auto.
    - destruct u as [|h u].
      + destruct m as [|h m]; [discriminate|]. right. cbn [app List.length firstn] in *.
        assert (L : (0 < List.length l)%nat).
        { destruct h as [| |q].
          - rewrite step_correct in E. apply obind_ok in E. destruct E as ([[l0 s0] r0] & _ & E). injection E as <- <- <-. cbn [List.length]. lia.
          - rewrite step_lit in E. destruct (nth_error data (sc_pos s)); [|discriminate]. injection E as <- <- <-. cbn [List.length]. lia.
          - rewrite step_ref in E. injection E as <- <- <-. cbn [List.length]. lia. }
        split; [exact L|]. unfold codes_bytes. cbn [map fold_right]. rewrite Nat.add_0_r. intro N. rewrite step_lit, N. reflexivity.
      + cbn [app] in E. destruct h as [| |q].
        * rewrite step_correct in E. apply obind_ok in E. destruct E as ([[l0 s0] r0] & E0 & E). injection E as <- <- <-.
          destruct (IH _ _ _ _ _ _ rest E0) as [(u1 & u2 & -> & -> & L)|[L K]].
          -- left. exists (Correct :: u1), u2. split; [reflexivity|]. split; [reflexivity|]. cbn [List.length]. lia.
          -- right. split; [cbn [List.length]; lia|]. cbn [List.length firstn]. rewrite codes_bytes_cons, Nat.add_assoc, <- (feedback_moves t). intro N.
             cbn [app]. rewrite step_correct, (K N). reflexivity.
        * rewrite step_lit in E. destruct (nth_error data (sc_pos s)); [|discriminate]. injection E as <- <- <-. left. exists [ActuallyLiteral], u. auto.
        * rewrite step_ref in E. injection E as <- <- <-. left. exists [Actually q], u. auto.
  Qed.

  Lemma round fuel s : (sc_pos s < List.length w)%nat -> exists gs, gs <> [] /\
    forall tr, restore_loop (S fuel) t s tr = r <-? restore_guesses t gs s tr ;; let '(l, s', tr'') := r in more <-? restore_loop fuel t s' tr'' ;; Ok (l ++ more).
  Proof.
    intro HP. assert (MD := more_data_spec w t s R). rewrite (proj2 (Nat.ltb_lt _ _) HP) in MD.
    destruct (guess_ok w t (cfg_lookahead (t_config t)) (sc_obscured s) (sc_pos s) R HB HP) as (gs & k & EG & HN & _). fold (sc_codes t s) in EG.
    exists gs. split; [exact HN|]. intro tr. cbn [restore_loop]. rewrite MD, EG. cbn [obind]. destruct gs; [congruence|reflexivity].
  Qed.
  Lemma done fuel s tr : (List.length w <= sc_pos s)%nat -> restore_loop (S fuel) t s tr = Ok [].
  Proof. intro HP. assert (MD := more_data_spec w t s R). rewrite (proj2 (Nat.ltb_ge _ _) HP) in MD. cbn [restore_loop]. rewrite MD. reflexivity. Qed.

  Lemma loop_past fuel : forall s tr, restore_loop fuel t s tr = Panic "index out of bounds" ->
    exists used rest, tr = used ++ ActuallyLiteral :: rest /\ restore_loop fuel t s used = Panic "not out of data"
      /\ forall more c, restore_loop fuel t s (used ++ more) = Ok c ->
           exists l1 l2, c = l1 ++ l2 /\ List.length l1 = List.length used /\ none_at (sc_pos s + codes_bytes l1)%nat.
  Proof.
    induction fuel as [|fuel IH]; intros s tr E; [discriminate|].
    destruct (Nat.lt_ge_cases (sc_pos s) (List.length w)) as [HP|HP]; [|rewrite done in E by exact HP; discriminate].
    destruct (round fuel s HP) as (gs & HN & ST). rewrite ST in E.
    destruct (restore_guesses t gs s tr) as [[[l s'] r]| |m|] eqn:EG; cbn [obind] in E; try discriminate.
    - destruct (group_ok _ _ _ _ _ _ EG) as (u & -> & L & P & M).
      destruct (restore_loop fuel t s' r) as [c| |m|] eqn:EL; cbn [obind] in E; try discriminate. injection E as ->.
      destruct (IH _ _ EL) as (used & rest & -> & U & K). exists (u ++ used), rest. split; [now rewrite app_assoc|].
      split; [rewrite ST, M; cbn [obind]; rewrite U; reflexivity|]. intros more c EC. rewrite ST, <- app_assoc, M in EC. cbn [obind] in EC.
      apply obind_ok in EC. destruct EC as (c' & EC & E2). injection E2 as <-. destruct (K _ _ EC) as (l1 & l2 & -> & LL & N).
      exists (l ++ l1), l2. split; [now rewrite app_assoc|]. split; [rewrite !app_length; lia|]. rewrite codes_bytes_app, Nat.add_assoc, <- P. exact N.
    - injection E as ->. destruct (group_past _ _ _ EG) as (used & rest & -> & U & K). exists used, rest. split; [reflexivity|].
      split; [rewrite ST, U; reflexivity|]. intros more c EC. rewrite ST in EC. apply obind_ok in EC. destruct EC as ([[l s'] r] & E1 & EC).
      apply obind_ok in EC. destruct EC as (c' & _ & E2). injection E2 as <-. destruct (K _ _ _ _ E1) as (l1 & l2 & -> & LL & N).
      exists l1, (l2 ++ c'). split; [now rewrite app_assoc|]. auto.
  Qed.

  Lemma loop_ask fuel : forall s u m c rest, restore_loop fuel t s (u ++ m) = Ok c ->
    (sc_pos s + codes_bytes (firstn (List.length u) c) < List.length w)%nat ->
    none_at (sc_pos s + codes_bytes (firstn (List.length u) c))%nat ->
    restore_loop fuel t s (u ++ ActuallyLiteral :: rest) = Panic "index out of bounds".
  Proof.
    induction fuel as [|fuel IH]; intros s u m c rest E HL N; [discriminate|].
    assert (HP : (sc_pos s < List.length w)%nat) by lia.
    destruct (round fuel s HP) as (gs & HN & ST). rewrite ST in E. apply obind_ok in E. destruct E as ([[l s'] r] & E1 & E).
    apply obind_ok in E. destruct E as (c' & E2 & E). injection E as <-. rewrite ST.
    destruct (group_ask _ _ _ _ _ _ _ rest E1) as [(u1 & u2 & -> & -> & L)|[L K]].
    - destruct (group_ok _ _ _ _ _ _ E1) as (v & EV & LV & P & M).
      assert (EU : v = u1). { rewrite <- app_assoc in EV. apply app_inv_tail in EV. now symmetry. } subst v.
      rewrite <- app_assoc, M. cbn [obind].
      rewrite app_length, L, firstn_app_2, codes_bytes_app, Nat.add_assoc, <- P in HL, N.
      rewrite (IH s' u2 m c' rest E2 HL N). reflexivity.
    - rewrite firstn_app in N. replace (List.length u - List.length l)%nat with 0%nat in N by lia. rewrite firstn_O, app_nil_r in N.
      rewrite (K N). reflexivity.
  Qed.
End Panics.

Lemma follows_starts p d pos h c stop : follows p d pos h c stop -> forall k, (k < List.length c)%nat ->
  (pos + codes_bytes (firstn k c) < List.length (p ++ d))%nat.
Proof.
  induction 1 as [|pos h c hs cs stop A B F IH]; intros k HK; [cbn [List.length] in HK; lia|].
  destruct k as [|k]; [unfold codes_bytes; cbn [firstn map fold_right]; lia|]. cbn [firstn List.length] in *. rewrite codes_bytes_cons. specialize (IH k ltac:(lia)). lia.
Qed.

Lemma C81_lemma_too_few_iff : forall config preroll data limit refs hints n,
  bytes_ok preroll -> bytes_ok data -> with_sixteen preroll data limit = Ok refs -> (List.length data <= n)%nat ->
  (restore hints (mkTechnique config refs) = Panic "not out of data"
   <-> exists codes, restore (hints ++ repeat Correct n) (mkTechnique config refs) = Ok codes /\ (List.length hints < List.length codes)%nat).
Proof.
  intros config preroll data limit refs hints n BP BD EW Hn. split.
  - intro E. exact (C81_lemma_too_few config preroll data limit refs hints n BP BD EW E Hn).
  - intros (codes & E & L).
    destruct (top_any config preroll data limit refs BP BD EW hints) as [(used & rest & codes' & stop & E' & F & LS & RR)|[(codes' & stop & F & LS & RR)|(used & rest & codes' & stop & E' & F & LS & N & RR)]].
    + exfalso. rewrite E', <- app_assoc, RR in E. injection E as <-. destruct (follows_length _ _ _ _ _ _ F) as [FL _]. rewrite E', app_length in L. lia.
    + exact RR.
    + rewrite E', <- app_assoc in E. cbn [app] in E. rewrite RR in E. discriminate.
Qed.

Lemma C81_lemma_past_end : forall config preroll data limit refs hints,
  bytes_ok preroll -> bytes_ok data -> with_sixteen preroll data limit = Ok refs ->
  (restore hints (mkTechnique config refs) = Panic "index out of bounds"
   <-> exists before after codes, hints = before ++ ActuallyLiteral :: after
         /\ restore (before ++ repeat Correct (List.length data)) (mkTechnique config refs) = Ok codes
         /\ let pos := (List.length preroll + codes_bytes (firstn (List.length before) codes))%nat in
            (List.length data <= pos < List.length preroll + List.length data)%nat).
Proof.
  intros config preroll data limit refs hints BP BD EW.
  destruct (technique_of config _ _ _ _ EW) as (R & P & L & _).
  assert (HD : ar_data (t_refs (mkTechnique config refs)) = data).
  { destruct (with_sixteen_ok preroll data limit) as (a & E' & _ & _ & _ & HD). rewrite EW in E'. injection E' as <-. exact HD. }
  assert (HB : bytes_ok (preroll ++ data)) by (apply Forall_app; split; assumption). split.
  - intro E. unfold restore in E. destruct (loop_past _ preroll data R HB HD _ _ _ E) as (used & rest & -> & U & K). fold (restore used (mkTechnique config refs)) in U.
    destruct (C81_lemma_too_few config preroll data limit refs used (List.length data) BP BD EW U (le_n _)) as (codes & EC & LC).
    exists used, rest, codes. split; [reflexivity|]. split; [exact EC|]. cbv zeta.
    destruct (K _ _ EC) as (l1 & l2 & -> & LL & N). rewrite <- LL, firstn_app, firstn_all, Nat.sub_diag, firstn_O, app_nil_r.
    rewrite P in N. apply nth_error_None in N. split; [exact N|].
    destruct (proj1 (C81_lemma config preroll data limit refs _ BP BD EW) _ EC) as (u & r & stop & _ & F & _).
    assert (X := follows_starts _ _ _ _ _ _ F (List.length l1) ltac:(lia)). rewrite firstn_app, firstn_all, Nat.sub_diag, firstn_O, app_nil_r, app_length in X. exact X.
  - intros (before & after & codes & -> & E & HP). cbv zeta in HP. unfold restore in *.
    apply (loop_ask _ preroll data R HB HD _ _ _ _ _ _ E).
    + rewrite P, app_length. lia.
    + rewrite P. apply nth_error_None. lia.
Qed.
