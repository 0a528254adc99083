(** Proofs of C81. *)
From Verif Require Import Base M_bit M_lib M_all_refs M_technique M_trace Spec Clients Clients_restore Clients_hints
  L_P_e2e L_search L_ring L_tech L_trace L_P_trace L_restore.
From Coq Require Import ZArith ZifyBool ZifyNat ZifyN.
Ltac Zify.zify_post_hook ::= Z.div_mod_to_equations.
Local Open Scope N_scope.
Local Open Scope model_scope.

Lemma code_bytes_emitted c : code_bytes c = N.to_nat (emitted_bytes c).
Proof. destruct c; reflexivity. Qed.
Lemma code_bytes_pos c : (1 <= code_bytes c)%nat.
Proof. destruct c; cbn [code_bytes]; [lia|]. unfold ref_len. lia. Qed.

Lemma follows_app p d pos h1 c1 mid : follows p d pos h1 c1 mid -> forall h2 c2 stop, follows p d mid h2 c2 stop -> follows p d pos (h1 ++ h2) (c1 ++ c2) stop.
Proof. induction 1; intros h2 c2 stop' F2; cbn [app]; [exact F2|]. apply follows_cons; auto. Qed.
Lemma follows_length p d pos h c stop : follows p d pos h c stop -> List.length c = List.length h /\ (pos + List.length h <= stop)%nat.
Proof. induction 1 as [|pos h c hs cs stop A B F [IH1 IH2]]; cbn [List.length]; [lia|]. assert (X := code_bytes_pos c). lia. Qed.

Lemma decodes_split w pos c cs k : (pos <= List.length w)%nat -> decodes w pos (c :: cs) k ->
  right_code w pos c /\ decodes w (pos + code_bytes c) cs (k - code_bytes c).
Proof.
  intros Hp HD. assert (EK := decodes_emitted _ _ _ _ Hp HD). destruct HD as [HK HD].
  assert (PC := emitted_pos c cs). set (v := firstn (pos + k) w) in *.
  assert (LV : List.length v = (pos + k)%nat) by (unfold v; rewrite firstn_length; lia).
  assert (FV : forall n, (n <= pos + k)%nat -> firstn n v = firstn n w).
  { intros n Hn. unfold v. rewrite firstn_firstn. f_equal. lia. }
  assert (F : finishes v pos ([c] ++ cs)).
  { split; [lia|]. rewrite FV by lia. exact HD. }
  assert (EM : emitted [c] = code_bytes c) by (rewrite code_bytes_emitted; cbn [emitted]; lia).
  cbn [emitted] in EK. rewrite <- code_bytes_emitted in EK.
  apply finishes_app in F. destruct F as [[F1 F2] [F3 F4]]. rewrite EM in *. rewrite LV in *. rewrite !FV in F2 by lia. rewrite FV in F4 by lia.
  split; [split; [lia|exact F2]|]. split; [lia|]. rewrite F4. unfold v. f_equal. f_equal. lia.
Qed.

Section Any.
  Context (t : Technique) (preroll data : list N).
  Context (R : refs_of (preroll ++ data) (t_refs t)) (HB : bytes_ok (preroll ++ data)) (HD : ar_data (t_refs t) = data).
  Notation w := (preroll ++ data).

  Lemma guesses_any gs : forall s tr k, gs <> [] -> (sc_pos s <= List.length w)%nat -> decodes w (sc_pos s) gs k ->
    (exists used rest codes s', tr = used ++ rest /\ follows preroll data (sc_pos s) used codes (sc_pos s') /\ (sc_pos s < sc_pos s')%nat
       /\ forall more, restore_guesses t gs s (used ++ more) = Ok (codes, s', more))
    \/ (exists codes stop, follows preroll data (sc_pos s) tr codes stop /\ (stop < List.length w)%nat /\ restore_guesses t gs s tr = Panic "not out of data")
    \/ (exists used rest codes stop, tr = used ++ ActuallyLiteral :: rest /\ follows preroll data (sc_pos s) used codes stop /\ (stop < List.length w)%nat
       /\ nth_error data stop = None /\ forall more, restore_guesses t gs s (used ++ ActuallyLiteral :: more) = Panic "index out of bounds").
  Proof.
    induction gs as [|g gs IH]; intros s tr k HN HP D; [congruence|]. clear HN.
    assert (PL : (sc_pos s < List.length w)%nat).
    { assert (X := decodes_emitted _ _ _ _ HP D). assert (Y := emitted_pos g gs). destruct D as [D _]. lia. }
    destruct (decodes_split _ _ _ _ _ HP D) as (D1 & D2).
    destruct tr as [|h tr]; [right; left; exists [], (sc_pos s); split; [constructor|]; split; [lia|reflexivity]|].
    destruct h as [| |r].
    - assert (A : answers preroll data (sc_pos s) Correct g) by exact D1.
      assert (PF : sc_pos (feedback t s g) = (sc_pos s + code_bytes g)%nat) by (rewrite feedback_pos, code_bytes_emitted; reflexivity).
      destruct gs as [|g' gs].
      + left. exists [Correct], tr, [g], (feedback t s g). split; [reflexivity|]. split; [apply follows_cons; [assumption..|rewrite PF; constructor]|].
        split; [rewrite PF; assert (X := code_bytes_pos g); lia|]. intro more. reflexivity.
      + destruct (IH (feedback t s g) tr (k - code_bytes g)%nat ltac:(discriminate)) as [(used & rest & codes & s' & E & F & L & RR)|[(codes & stop & F & L & RR)|(used & rest & codes & stop & E & F & L & N & RR)]].
        { rewrite PF. apply D1. }
        { rewrite PF. exact D2. }
        * left. exists (Correct :: used), rest, (g :: codes), s'. split; [now rewrite E|]. rewrite PF in *. split; [now apply follows_cons|]. split; [lia|].
          intro more. specialize (RR more). cbn [app]. change (restore_guesses t (g :: g' :: gs) s (Correct :: used ++ more)) with
            (r <-? restore_guesses t (g' :: gs) (feedback t s g) (used ++ more) ;; let '(l, s'', tr'') := r in Ok (g :: l, s'', tr'')). rewrite RR. reflexivity.
        * right; left. exists (g :: codes), stop. rewrite PF in F. split; [now apply follows_cons|]. split; [lia|].
          change (restore_guesses t (g :: g' :: gs) s (Correct :: tr)) with
            (r <-? restore_guesses t (g' :: gs) (feedback t s g) tr ;; let '(l, s'', tr'') := r in Ok (g :: l, s'', tr'')). rewrite RR. reflexivity.
        * right; right. exists (Correct :: used), rest, (g :: codes), stop. rewrite PF in F. split; [now rewrite E|]. split; [now apply follows_cons|]. split; [lia|]. split; [exact N|].
          intro more. specialize (RR more). cbn [app]. change (restore_guesses t (g :: g' :: gs) s (Correct :: used ++ ActuallyLiteral :: more)) with
            (r <-? restore_guesses t (g' :: gs) (feedback t s g) (used ++ ActuallyLiteral :: more) ;; let '(l, s'', tr'') := r in Ok (g :: l, s'', tr'')). rewrite RR. reflexivity.
    - destruct (nth_error data (sc_pos s)) as [b|] eqn:EB.
      + left. exists [ActuallyLiteral], tr, [Literal b], (feedback t s (Literal b)). split; [reflexivity|].
        assert (PF : sc_pos (feedback t s (Literal b)) = (sc_pos s + 1)%nat) by (rewrite feedback_pos; reflexivity). rewrite PF.
        split; [apply follows_cons; [assumption|exists b; now split|constructor]|]. split; [lia|]. intro more. cbn [app restore_guesses]. unfold byte_at, get_idx. rewrite HD, EB. reflexivity.
      + right; right. exists [], tr, [], (sc_pos s). split; [reflexivity|]. split; [constructor|]. split; [exact PL|]. split; [exact EB|].
        intro more. cbn [app restore_guesses]. unfold byte_at, get_idx. rewrite HD, EB. reflexivity.
    - left. exists [Actually r], tr, [Reference r], (feedback t s (Reference r)). split; [reflexivity|].
      assert (PF : sc_pos (feedback t s (Reference r)) = (sc_pos s + code_bytes (Reference r))%nat) by (rewrite feedback_pos, code_bytes_emitted; reflexivity). rewrite PF.
      split; [apply follows_cons; [assumption|reflexivity|constructor]|]. split; [assert (X := code_bytes_pos (Reference r)); lia|]. intro more. reflexivity.
  Qed.

  Lemma restore_any fuel : forall s tr, (List.length w - sc_pos s < fuel)%nat ->
    (exists used rest codes stop, tr = used ++ rest /\ follows preroll data (sc_pos s) used codes stop /\ (List.length w <= stop)%nat
       /\ forall more, restore_loop fuel t s (used ++ more) = Ok codes)
    \/ (exists codes stop, follows preroll data (sc_pos s) tr codes stop /\ (stop < List.length w)%nat /\ restore_loop fuel t s tr = Panic "not out of data")
    \/ (exists used rest codes stop, tr = used ++ ActuallyLiteral :: rest /\ follows preroll data (sc_pos s) used codes stop /\ (stop < List.length w)%nat
       /\ nth_error data stop = None /\ forall more, restore_loop fuel t s (used ++ ActuallyLiteral :: more) = Panic "index out of bounds").
  Proof.
    induction fuel as [|fuel IH]; intros s tr HL; [lia|].
    assert (MD := more_data_spec w t s R). destruct (Nat.ltb_spec (sc_pos s) (List.length w)) as [HP|HP].
    2: { left. exists [], tr, [], (sc_pos s). split; [reflexivity|]. split; [constructor|]. split; [exact HP|]. intro more. cbn [restore_loop]. rewrite MD. reflexivity. }
    destruct (guess_ok w t (cfg_lookahead (t_config t)) (sc_obscured s) (sc_pos s) R HB HP) as (gs & k & EG & HN & HK & D & _). fold (sc_codes t s) in EG.
    assert (ST : forall tr', restore_loop (S fuel) t s tr' = r <-? restore_guesses t gs s tr' ;; let '(l, s', tr'') := r in more <-? restore_loop fuel t s' tr'' ;; Ok (l ++ more)).
    { intro tr'. cbn [restore_loop]. rewrite MD, EG. cbn [obind]. destruct gs; [congruence|reflexivity]. }
    destruct (guesses_any gs s tr k HN ltac:(lia) D) as [(used & rest & codes & s' & E & F & L & RR)|[(codes & stop & F & L & RR)|(used & rest & codes & stop & E & F & L & N & RR)]].
    - destruct (IH s' rest ltac:(lia)) as [(used' & rest' & codes' & stop' & E' & F' & L' & RR')|[(codes' & stop' & F' & L' & RR')|(used' & rest' & codes' & stop' & E' & F' & L' & N' & RR')]].
      + left. exists (used ++ used'), rest', (codes ++ codes'), stop'. split; [rewrite E, E', app_assoc; reflexivity|]. split; [exact (follows_app _ _ _ _ _ _ F _ _ _ F')|]. split; [exact L'|].
        intro more. rewrite ST, <- app_assoc, RR. cbn [obind]. rewrite RR'. reflexivity.
      + right; left. exists (codes ++ codes'), stop'. subst tr. split; [exact (follows_app _ _ _ _ _ _ F _ _ _ F')|]. split; [exact L'|].
        rewrite ST, RR. cbn [obind]. rewrite RR'. reflexivity.
      + right; right. exists (used ++ used'), rest', (codes ++ codes'), stop'. split; [rewrite E, E', app_assoc; reflexivity|]. split; [exact (follows_app _ _ _ _ _ _ F _ _ _ F')|]. split; [exact L'|]. split; [exact N'|].
        intro more. rewrite ST, <- app_assoc, RR. cbn [obind]. rewrite RR'. reflexivity.
    - right; left. exists codes, stop. split; [exact F|]. split; [exact L|]. rewrite ST, RR. reflexivity.
    - right; right. exists used, rest, codes, stop. split; [exact E|]. split; [exact F|]. split; [exact L|]. split; [exact N|]. intro more. rewrite ST, RR. reflexivity.
  Qed.
End Any.

Section Top.
  Context (config : Config) (preroll data : list N) (limit : N) (refs : AllRefs).
  Context (BP : bytes_ok preroll) (BD : bytes_ok data) (EW : with_sixteen preroll data limit = Ok refs).

  Lemma top_any hints :
    (exists used rest codes stop, hints = used ++ rest /\ follows preroll data (List.length preroll) used codes stop /\ (List.length (preroll ++ data) <= stop)%nat
       /\ forall more, restore (used ++ more) (mkTechnique config refs) = Ok codes)
    \/ (exists codes stop, follows preroll data (List.length preroll) hints codes stop /\ (stop < List.length (preroll ++ data))%nat
       /\ restore hints (mkTechnique config refs) = Panic "not out of data")
    \/ (exists used rest codes stop, hints = used ++ ActuallyLiteral :: rest /\ follows preroll data (List.length preroll) used codes stop
       /\ (stop < List.length (preroll ++ data))%nat /\ nth_error data stop = None
       /\ forall more, restore (used ++ ActuallyLiteral :: more) (mkTechnique config refs) = Panic "index out of bounds").
  Proof.
    destruct (technique_of config _ _ _ _ EW) as (R & P & L & _).
    assert (HD : ar_data (t_refs (mkTechnique config refs)) = data).
    { destruct (with_sixteen_ok preroll data limit) as (a & E' & _ & _ & _ & HD). rewrite EW in E'. injection E' as <-. exact HD. }
    unfold restore. rewrite <- P, L. apply restore_any; [exact R|apply Forall_app; split; [exact BP|exact BD]|exact HD|lia].
  Qed.
End Top.

Lemma C81_lemma : forall config preroll data limit refs hints,
  bytes_ok preroll -> bytes_ok data -> with_sixteen preroll data limit = Ok refs ->
  (forall codes, restore hints (mkTechnique config refs) = Ok codes ->
     exists used rest stop, hints = used ++ rest /\ follows preroll data (List.length preroll) used codes stop
       /\ (List.length (preroll ++ data) <= stop)%nat)
  /\ ((exists codes, restore hints (mkTechnique config refs) = Ok codes)
      \/ restore hints (mkTechnique config refs) = Panic "not out of data"
      \/ restore hints (mkTechnique config refs) = Panic "index out of bounds" /\ preroll <> [] /\ In ActuallyLiteral hints).
Proof.
  intros config preroll data limit refs hints BP BD EW.
  destruct (top_any config preroll data limit refs BP BD EW hints) as [(used & rest & codes & stop & E & F & L & RR)|[(codes & stop & F & L & RR)|(used & rest & codes & stop & E & F & L & N & RR)]].
  - assert (E2 := RR rest). rewrite <- E in E2. rewrite E2. split; [|left; now exists codes]. intros ? [= <-]. exists used, rest, stop. auto.
  - rewrite RR. split; [discriminate|]. right; now left.
  - rewrite E, RR. split; [discriminate|]. right; right. split; [reflexivity|]. split; [|apply in_or_app; right; now left].
    intros ->. apply nth_error_None in N. cbn [app] in L. lia.
Qed.

Lemma C81_lemma_enough : forall config preroll data limit refs hints codes more,
  bytes_ok preroll -> bytes_ok data -> with_sixteen preroll data limit = Ok refs ->
  restore hints (mkTechnique config refs) = Ok codes ->
  restore (firstn (List.length codes) hints ++ more) (mkTechnique config refs) = Ok codes.
Proof.
  intros config preroll data limit refs hints codes more BP BD EW E0.
  destruct (top_any config preroll data limit refs BP BD EW hints) as [(used & rest & codes' & stop & E & F & L & RR)|[(codes' & stop & F & L & RR)|(used & rest & codes' & stop & E & F & L & N & RR)]].
  - rewrite E, RR in E0. injection E0 as <-. destruct (follows_length _ _ _ _ _ _ F) as [FL _]. rewrite E, FL, firstn_app, firstn_all, Nat.sub_diag, firstn_O, app_nil_r. apply RR.
  - congruence.
  - rewrite E, RR in E0. discriminate.
Qed.

Lemma C81_lemma_too_few : forall config preroll data limit refs hints n,
  bytes_ok preroll -> bytes_ok data -> with_sixteen preroll data limit = Ok refs ->
  restore hints (mkTechnique config refs) = Panic "not out of data" -> (List.length data <= n)%nat ->
  exists codes, restore (hints ++ repeat Correct n) (mkTechnique config refs) = Ok codes /\ (List.length hints < List.length codes)%nat.
Proof.
  intros config preroll data limit refs hints n BP BD EW E0 Hn.
  destruct (top_any config preroll data limit refs BP BD EW (hints ++ repeat Correct n)) as [(used & rest & codes & stop & E & F & L & RR)|[(codes & stop & F & L & RR)|(used & rest & codes & stop & E & F & L & N & RR)]].
  - exists codes. split; [now rewrite E|]. destruct (follows_length _ _ _ _ _ _ F) as [FL _]. rewrite FL.
    destruct (Nat.lt_ge_cases (List.length hints) (List.length used)) as [|X]; [assumption|exfalso].
    assert (EP : hints = used ++ skipn (List.length used) hints).
    { rewrite <- (firstn_skipn (List.length used) hints) at 1. f_equal. assert (Y := f_equal (firstn (List.length used)) E).
      rewrite !firstn_app, firstn_all, Nat.sub_diag, firstn_O, app_nil_r in Y. replace (List.length used - List.length hints)%nat with 0%nat in Y by lia.
      rewrite firstn_O, app_nil_r in Y. exact Y. }
    rewrite EP, RR in E0. discriminate.
  - exfalso. destruct (follows_length _ _ _ _ _ _ F) as [_ FL]. rewrite app_length, repeat_length in FL. rewrite app_length in L. lia.
  - exfalso. assert (X : (List.length used < List.length hints)%nat).
    { destruct (Nat.lt_ge_cases (List.length used) (List.length hints)) as [|X]; [assumption|exfalso].
      assert (Y := f_equal (fun l => nth_error l (List.length used)) E). cbn beta in Y. rewrite !nth_error_app2, Nat.sub_diag in Y by lia. cbn [nth_error] in Y.
      apply nth_error_In, repeat_spec in Y. discriminate. }
    assert (EP : exists r, hints = used ++ ActuallyLiteral :: r).
    { exists (skipn (S (List.length used)) hints). rewrite <- (firstn_skipn (S (List.length used)) hints) at 1.
      assert (Y := f_equal (firstn (S (List.length used))) E). rewrite !firstn_app in Y. replace (S (List.length used) - List.length hints)%nat with 0%nat in Y by lia.
      replace (S (List.length used) - List.length used)%nat with 1%nat in Y by lia. rewrite firstn_O, app_nil_r in Y. rewrite Y.
      rewrite (firstn_all2 used) by lia. rewrite <- app_assoc. reflexivity. }
    destruct EP as (r & EP). rewrite EP, RR in E0. discriminate.
Qed.

Lemma right_codes_finish w : forall codes hints pos stop, follows [] w pos hints codes stop -> (pos <= List.length w)%nat -> (List.length w <= stop)%nat ->
  (finishes w pos codes <-> forall i r, nth_error hints i = Some (Actually r) -> right_code w (pos + codes_bytes (firstn i codes)) (Reference r)).
Proof.
  induction codes as [|c codes IH]; intros hints pos stop F HP HS; inversion F as [|? h ? hints' ? ? P A F' E1 E2 E3]; subst.
  - split; [intros _ [|i] r X; discriminate|]. intros _. split; [lia|]. cbn [lz_decode]. rewrite firstn_all2 by lia. reflexivity.
  - cbn [app] in P, A.
    assert (SH : (forall i r, nth_error (h :: hints') i = Some (Actually r) -> right_code w (pos + codes_bytes (firstn i (c :: codes))) (Reference r))
      <-> (forall r, h = Actually r -> right_code w pos (Reference r)) /\ (forall i r, nth_error hints' i = Some (Actually r) -> right_code w ((pos + code_bytes c) + codes_bytes (firstn i codes)) (Reference r))).
    { split.
      - intro H. split; [intros r ->; specialize (H 0%nat r eq_refl); cbn [firstn] in H; unfold codes_bytes in H; cbn [map fold_right] in H; now rewrite Nat.add_0_r in H|].
        intros i r X. specialize (H (S i) r X). unfold codes_bytes in *. cbn [firstn map fold_right] in H. now rewrite Nat.add_assoc in H.
      - intros [H1 H2] [|i] r X; [injection X as ->; unfold codes_bytes; cbn [firstn map fold_right]; rewrite Nat.add_0_r; now apply H1|].
        unfold codes_bytes in *. cbn [firstn map fold_right]. rewrite Nat.add_assoc. now apply H2. }
    rewrite SH.
    assert (RC : right_code w pos c <-> forall r, h = Actually r -> right_code w pos (Reference r)).
    { destruct h as [| |r0]; cbn [answers] in A.
      - split; [discriminate|intros _; exact A].
      - split; [discriminate|intros _]. destruct A as (b & E & ->). split; [cbn [code_bytes]; lia|]. cbn [lz_decode code_bytes]. f_equal.
        apply nth_error_split in E. destruct E as (l1 & l2 & -> & <-). rewrite (firstn_app_2 1), firstn_app, firstn_all, Nat.sub_diag. cbn [firstn]. now rewrite app_nil_r.
      - subst c. split; [intros X r [= <-]; exact X|intro X; now apply X]. }
    rewrite <- RC. clear SH RC. split.
    + intro G. assert (G2 := G). change (c :: codes) with ([c] ++ codes) in G2. apply finishes_app in G2. destruct G2 as [G2 G3].
      assert (EM : emitted [c] = code_bytes c) by (rewrite code_bytes_emitted; cbn [emitted]; lia). rewrite EM in *. split; [exact G2|].
      apply (IH _ _ _ F'); [apply G2|exact HS|exact G3].
    + intros [G1 G2]. apply (IH _ _ _ F') in G2; [|apply G1|exact HS]. destruct G2 as [_ G2]. split; [exact HP|].
      change (c :: codes) with ([c] ++ codes). rewrite lz_decode_app. destruct G1 as [_ ->]. exact G2.
Qed.

Lemma C81_lemma_decodes : forall config data limit refs hints codes,
  bytes_ok data -> with_sixteen [] data limit = Ok refs -> restore hints (mkTechnique config refs) = Ok codes ->
  (encodes [] data codes
   <-> forall i r, (i < List.length codes)%nat -> nth_error hints i = Some (Actually r) -> right_code data (codes_bytes (firstn i codes)) (Reference r)).
Proof.
  intros config data limit refs hints codes BD EW E0.
  destruct (proj1 (C81_lemma config [] data limit refs hints (Forall_nil _) BD EW) codes E0) as (used & rest & stop & E & F & L). cbn [app List.length] in *.
  destruct (follows_length _ _ _ _ _ _ F) as [FL _].
  rewrite <- finishes_encodes. cbn [app List.length]. rewrite (right_codes_finish data codes used 0 stop F) by lia. cbn [Nat.add]. split; intros H i r.
  - intros X Y. apply H. rewrite E, nth_error_app1 in Y by lia. exact Y.
  - intro Y. assert (X : (i < List.length used)%nat) by (apply nth_error_Some; now rewrite Y). apply H; [lia|]. rewrite E, nth_error_app1 by lia. exact Y.
Qed.

Lemma greedy_guess t : cfg_lookahead (t_config t) = LGreedy -> forall fuel s tr codes, restore_loop fuel t s tr = Ok codes ->
  forall i c, nth_error tr i = Some Correct -> nth_error codes i = Some c -> sc_codes t (fold_left (feedback t) (firstn i codes) s) = Ok [c].
Proof.
  intros G fuel. induction fuel as [|fuel IH]; intros s tr codes E i c HT HC; [discriminate|]. cbn [restore_loop] in E.
  destruct (more_data t s); [|injection E as <-; destruct i; discriminate].
  apply obind_ok in E. destruct E as (gs & EG & E).
  assert (ONE : exists g, gs = [g]).
  { unfold sc_codes, lookahead in EG. rewrite G in EG. unfold la_greedy in EG. apply obind_ok in EG. destruct EG as (x & _ & EG). injection EG as <-. eexists; reflexivity. }
  destruct ONE as (g & ->). apply obind_ok in E. destruct E as ([[l s'] tr'] & E1 & E). apply obind_ok in E. destruct E as (codes' & E2 & E). injection E as <-.
  cbn [restore_guesses] in E1. destruct tr as [|h tr]; [discriminate|]. apply obind_ok in E1. destruct E1 as (orig & EO & E1).
  assert (S1 : l = [orig] /\ s' = feedback t s orig /\ tr' = tr).
  { destruct h; cbn [obind] in E1; injection E1 as <- <- <-; auto. }
  destruct S1 as (-> & -> & ->). destruct i as [|i].
  - cbn [nth_error app] in HT, HC. injection HT as ->. injection HC as <-. injection EO as <-. exact EG.
  - cbn [nth_error app firstn fold_left] in *. exact (IH _ _ _ E2 i c HT HC).
Qed.

Lemma C81_lemma_guess : forall config preroll data limit refs hints codes i c,
  with_sixteen preroll data limit = Ok refs -> cfg_lookahead config = LGreedy ->
  restore hints (mkTechnique config refs) = Ok codes -> nth_error hints i = Some Correct -> nth_error codes i = Some c ->
  sc_codes (mkTechnique config refs) (fold_left (feedback (mkTechnique config refs)) (firstn i codes) (scanner (mkTechnique config refs))) = Ok [c].
Proof. intros config preroll data limit refs hints codes i c _ G E. exact (greedy_guess (mkTechnique config refs) G _ _ _ _ E i c). Qed.
