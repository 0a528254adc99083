(** Proofs of C58-C61: the techniques against the specified encoders. *)
From Verif Require Import Base M_bit M_lib M_all_refs M_technique M_trace Spec Clients Spec_encoder Clients_encoder
  L_bits L_ring L_search L_P_search L_tech L_P_tech L_trace L_strace L_P_trace.
From Coq Require Import ZArith ZifyBool ZifyNat ZifyN Sorted.
Ltac Zify.zify_post_hook ::= Z.div_mod_to_equations.
Local Open Scope N_scope.
Local Open Scope model_scope.

(** ** The search *)
Lemma longest_match_unique w pos d n m : longest_match w pos d n -> longest_match w pos d m -> n = m.
Proof.
  assert (X : forall a b, longest_match w pos d a -> longest_match w pos d b -> (a < b)%nat -> False).
  { intros a b (A1 & A2 & A3 & A4) (B1 & B2 & B3 & B4) L. destruct A4 as [A4|[A4|A4]]; [lia|lia|]. apply A4, B3, L. }
  intros A B. destruct (lt_eq_lt_dec n m) as [[L|L]|L]; [exfalso; eauto|exact L|exfalso; eauto].
Qed.

Lemma refs_unique w pos qs : forall a b,
  Forall2 (fun q r' => r_dist r' = N.of_nat (pos - q) /\ longest_match w pos (pos - q) (N.to_nat (ref_len r'))) qs a ->
  Forall2 (fun q r' => r_dist r' = N.of_nat (pos - q) /\ longest_match w pos (pos - q) (N.to_nat (ref_len r'))) qs b -> a = b.
Proof.
  induction qs as [|q qs IH]; intros a b HA HB; inversion HA as [|? [d1 r1] ? a' [A1 A2] A3]; inversion HB as [|? [d2 r2] ? b' [B1 B2] B3]; subst; [reflexivity|].
  cbn [r_dist] in *. f_equal; [|now apply IH]. assert (E := longest_match_unique _ _ _ _ _ A2 B2). unfold ref_len in E. cbn [r_run_minus_3] in E.
  f_equal; lia.
Qed.

Lemma match_at_unique w s runs pos r r' : match_at w s runs pos r -> match_at w s runs pos r' -> r = r'.
Proof.
  intros (a & A1 & A2 & _) (b & B1 & B2 & _). rewrite (refs_unique _ _ _ _ _ A1 B1) in A2. eapply first_best_unique; eassumption.
Qed.

Lemma candidates_late w limit runs pos : (pos < List.length w <= pos + 2)%nat -> candidates w limit runs pos = [].
Proof.
  intro H. unfold candidates. match goal with |- filter ?f ?l = [] => assert (X : forall q, In q l -> f q = false) end.
  - intros q HQ. apply firstn_In, filter_In in HQ. destruct HQ as [HQ _]. rewrite <- in_rev, in_seq in HQ.
    destruct (list_eq_dec _ _ _) as [E|]; [|apply Bool.andb_false_r]. exfalso.
    assert (L := f_equal (@List.length _) E). unfold three in L. rewrite !firstn_length, !skipn_length in L. lia.
  - match goal with |- filter ?f ?l = [] => revert X; generalize l end. intro l. induction l as [|q l IH]; intro X; cbn [filter]; [reflexivity|].
    rewrite (X q (or_introl eq_refl)). apply IH. intros q' H'. apply X. now right.
Qed.

Lemma firstn_forall2 {A B} (P : A -> B -> Prop) l l' : Forall2 P l l' -> forall n, Forall2 P (firstn n l) (firstn n l').
Proof. induction 1; intros [|n]; cbn [firstn]; constructor; auto. Qed.

Lemma forall2_of_map w pos : forall qs refs, map r_dist refs = map (fun q => N.of_nat (pos - q)) qs -> Forall (good_ref w pos) refs ->
  Forall2 (fun q r' => r_dist r' = N.of_nat (pos - q) /\ longest_match w pos (pos - q) (N.to_nat (ref_len r'))) qs refs.
Proof.
  induction qs as [|q qs IH]; intros [|r refs] E HF; cbn [map] in E; try discriminate; constructor.
  - injection E as E _. split; [exact E|]. inversion HF as [|? ? (_ & _ & HM) _]; subst. rewrite E in HM. now rewrite Nnat.Nat2N.id in HM.
  - injection E as _ E. apply IH; [exact E|]. now inversion HF.
Qed.

(** The picker on the references of the first [n] candidates is the search. *)
Lemma picker_search w c limit n runs pos refs :
  Forall2 (fun q r' => r_dist r' = N.of_nat (pos - q) /\ longest_match w pos (pos - q) (N.to_nat (ref_len r')))
          (candidates w (N.to_nat limit) runs pos) refs ->
  forall r, picker (cfg_picker c) (firstn n refs) (quit_search_above_length (cfg_wams c)) = Some r
    <-> match_at w (mkSearch (N.to_nat limit) n (quit_search_above_length (cfg_wams c)) (refuses_far_threes (cfg_picker c))) runs pos r.
Proof.
  intros HF r. assert (HN := firstn_forall2 _ _ _ HF n). assert (X := capped_spec r_run (quit_search_above_length (cfg_wams c)) (firstn n refs)).
  assert (FB : forall x, first_best r_run (quit_search_above_length (cfg_wams c)) (firstn n refs) x <-> first_best ref_len (quit_search_above_length (cfg_wams c)) (firstn n refs) x) by (intro; reflexivity).
  split.
  - intro E. exists (firstn n refs). cbn [nearest chain nice no_far_threes]. split; [exact HN|].
    unfold picker, drop_far_threes, longest, option_filter in E. destruct (capped_max_by _ _ _) as [x|]; [|destruct (cfg_picker c); discriminate].
    destruct (cfg_picker c); cbn [refuses_far_threes].
    + injection E as <-. split; [now apply FB|discriminate].
    + destruct (_ || _) eqn:EO; [|discriminate]. injection E as <-. split; [now apply FB|]. intros _. unfold ref_len, r_run in *. lia.
  - intros (refs' & H1 & H2 & H3). cbn [nearest chain nice no_far_threes] in *. rewrite <- (refs_unique _ _ _ _ _ HN H1) in H2. apply FB in H2.
    unfold picker, drop_far_threes, longest, option_filter. destruct (capped_max_by _ _ _) as [x|].
    + rewrite (first_best_unique _ _ _ _ _ X H2). destruct (cfg_picker c); cbn [refuses_far_threes] in H3; [reflexivity|].
      assert (Y : (3 <? r_run r) || (r_dist r <=? 4096) = true) by (specialize (H3 eq_refl); unfold ref_len, r_run in *; lia). now rewrite Y.
    + destruct H2 as (b & a & E & _). rewrite X in E. destruct b; discriminate.
Qed.

Section Technique.
  Context (w : list N) (t : Technique) (R : refs_of w (t_refs t)).
  Let c := t_config t.
  Let limit := ar_limit (t_refs t).

  (** What the search returns is what the specification finds. *)
  Lemma search_spec ob pos other : (pos < List.length w)%nat ->
    exists found, best_candidate_better_than t ob pos other = Ok (nth pos w 0, found)
      /\ forall r, found = Some r <-> match other with None => finds w c limit ob pos r | Some len => finds_next w c limit ob len pos r end.
  Proof.
    intro Hp. unfold best_candidate_better_than. rewrite (ar_get_ok w) by assumption. cbn [obind].
    assert (ALL : exists o, ar_at (t_refs t) pos ob = Ok o /\ forall n r,
              match o with None => None | Some it => picker (cfg_picker (t_config t)) (firstn n it) (quit_search_above_length (cfg_wams (t_config t))) end = Some r
              <-> match_at w (mkSearch (N.to_nat limit) n (quit_search_above_length (cfg_wams c)) (refuses_far_threes (cfg_picker c))) ob pos r).
    { assert (X := ar_at_ok _ _ pos ob R). destruct (Nat.ltb_spec (pos + 2) (List.length w)) as [HL|HL].
      - destruct X as (refs & E & ED & HG). exists (Some refs). split; [exact E|]. intros n r. apply picker_search. now apply forall2_of_map.
      - exists None. split; [exact X|]. intros n r. split; [discriminate|]. intros (refs & H1 & H2 & _). cbn [nearest chain] in H1.
        rewrite candidates_late, firstn_nil in H1 by lia. inversion H1; subst. destruct H2 as (b & a & E & _). destruct b; discriminate. }
    destruct ALL as (o & EO & HO).
    assert (FIN : forall n (P : Ref -> Prop), (forall r, P r <-> match_at w (mkSearch (N.to_nat limit) n (quit_search_above_length (cfg_wams c)) (refuses_far_threes (cfg_picker c))) ob pos r) ->
      exists found, (candidates0 <-? ar_at (t_refs t) pos ob ;; Ok (nth pos w 0, match candidates0 with None => None | Some it => picker (cfg_picker (t_config t)) (firstn n it) (quit_search_above_length (cfg_wams (t_config t))) end)) = Ok (nth pos w 0, found)
        /\ forall r, found = Some r <-> P r).
    { intros n P HP. rewrite EO. cbn [obind]. eexists. split; [reflexivity|]. intro r. rewrite HP. apply HO. }
    unfold search_limit. destruct other as [len|]; [|apply FIN; intro r; reflexivity].
    unfold finds_next, next_search. subst c. destruct (wams_lookahead (cfg_wams (t_config t))) as [la|].
    - destruct (len <? abort_above_length la).
      + exists None. split; [reflexivity|]. intro r. split; [discriminate|]. intros (s & E & _). discriminate.
      + destruct (apathetic_above_length la <? len); apply FIN; intro r; (split; [intros (s & [= <-] & H); exact H|eauto]).
    - apply FIN; intro r; (split; [intros (s & [= <-] & H); exact H|eauto]).
  Qed.

  Lemma finds_none (P : Ref -> Prop) : (forall r, None = Some r <-> P r) -> no_match P.
  Proof. intros H r HP. apply H in HP. discriminate. Qed.

  Lemma finds_fun ob pos r r' : finds w c limit ob pos r -> finds w c limit ob pos r' -> r = r'.
  Proof. apply match_at_unique. Qed.
  Lemma finds_next_fun ob len pos r r' : finds_next w c limit ob len pos r -> finds_next w c limit ob len pos r' -> r = r'.
  Proof. intros (s & E & H) (s' & E' & H'). rewrite E in E'. injection E' as <-. eapply match_at_unique; eassumption. Qed.

  (** ** Each strategy makes a choice, and there is only one. *)
  Lemma lazy_from_fun ob : forall pos r a, lazy_from w (finds_next w c limit ob) pos r a ->
    forall b, lazy_from w (finds_next w c limit ob) pos r b -> a = b.
  Proof.
    induction 1 as [pos r H|pos r r' x codes H1 H2 H3 H4 IH]; intros b HB; inversion HB; subst.
    - reflexivity.
    - exfalso. match goal with X : finds_next _ _ _ _ _ _ _ |- _ => apply H in X end. lia.
    - exfalso. match goal with X : forall _, _ -> _ |- _ => apply X in H1 end. lia.
    - f_equal; [congruence|]. apply IH.
      match goal with X : finds_next w c limit ob (ref_len r) (pos + 1) ?y |- _ => rewrite (finds_next_fun _ _ _ _ _ H1 X) end. assumption.
  Qed.

  Lemma choice_fun ob pos a b : choice_of w c limit ob pos a -> choice_of w c limit ob pos b -> a = b.
  Proof.
    unfold choice_of. destruct (cfg_lookahead c); intros HA HB.
    - inversion HA; inversion HB; subst; repeat match goal with
        | X : no_match (?f ?p), Y : ?f ?p ?r |- _ => exfalso; exact (X r Y)
        | X : no_match ?f, Y : finds _ _ _ _ ?p ?r |- _ => exfalso; exact (X r Y)
        end; [|congruence]. f_equal. f_equal. eapply finds_fun; eassumption.
    - inversion HA; inversion HB; subst; repeat match goal with
        | X : no_match ?f, Y : finds _ _ _ _ ?p ?r |- _ => exfalso; exact (X r Y)
        end; [|congruence]. match goal with X : finds w c limit ob pos ?x, Y : finds w c limit ob pos ?y |- _ => assert (x = y) by (eapply finds_fun; eassumption); subst y end.
      eapply lazy_from_fun; eassumption.
    - inversion HA; inversion HB; subst; repeat match goal with
        | X : no_match ?f, Y : finds _ _ _ _ ?p ?r |- _ => exfalso; exact (X r Y)
        | X : finds w c limit ob ?p ?x, Y : finds w c limit ob ?p ?y |- _ => assert (x = y) by (eapply finds_fun; eassumption); subst y; clear Y
        | X : finds w c limit ob ?p ?x, Y : forall z, finds w c limit ob ?p z -> _ |- _ => apply Y in X as ?; clear Y
        end; try congruence; try lia.
  Qed.

  Lemma nth_error_w pos : (pos < List.length w)%nat -> nth_error w pos = Some (nth pos w 0).
  Proof. apply nth_error_nth'. Qed.

  Lemma match_len s ob pos r : match_at w s ob pos r -> (pos + N.to_nat (ref_len r) <= List.length w)%nat /\ ref_len r <= 258 /\ 3 <= ref_len r.
  Proof.
    intros (refs & H1 & H2 & _). apply first_best_in in H2. clear - H1 H2. induction H1 as [|q x ? ? [_ H] H1 IH]; [destruct H2|].
    destruct H2 as [->|H2]; [|auto]. destruct H as (A & B & _). unfold ref_len in *. lia.
  Qed.
  Lemma finds_next_len ob len pos r : finds_next w c limit ob len pos r -> (pos + N.to_nat (ref_len r) <= List.length w)%nat /\ ref_len r <= 258 /\ 3 <= ref_len r.
  Proof. intros (s & _ & H). eapply match_len, H. Qed.

  Lemma gzip_loop_spec ob : forall fuel pos r, (pos + 1 < List.length w)%nat -> ref_len r <= 258 -> (258 < fuel + N.to_nat (ref_len r))%nat ->
    exists codes, la_gzip_loop fuel t ob pos (nth pos w 0) r = Ok codes /\ lazy_from w (finds_next w c limit ob) pos r codes.
  Proof.
    induction fuel as [|fuel IH]; intros pos r Hp HL HF; [lia|]. cbn [la_gzip_loop].
    destruct (search_spec ob (S pos) (Some (r_run r)) ltac:(lia)) as (found & E & HS). rewrite E. cbn [obind].
    replace (S pos) with (pos + 1)%nat in * by lia. change (r_run r) with (ref_len r) in *.
    destruct found as [new|].
    - assert (HN := proj1 (HS new) eq_refl). destruct (finds_next_len _ _ _ _ HN) as (L1 & L2 & L3). change (r_run new) with (ref_len new).
      destruct (N.ltb_spec (ref_len r) (ref_len new)) as [HLT|HGE].
      + destruct (IH (pos + 1)%nat new ltac:(lia) L2 ltac:(lia)) as (codes & EC & HC). rewrite EC. cbn [obind]. eexists. split; [reflexivity|].
        eapply lazy_defer; eauto. apply nth_error_w. lia.
      + eexists. split; [reflexivity|]. apply lazy_take. intros r' H'. rewrite <- (finds_next_fun _ _ _ _ _ HN H'). lia.
    - eexists. split; [reflexivity|]. apply lazy_take. intros r' H'. apply HS in H'. discriminate.
  Qed.

  Lemma choice_spec ob pos : (pos < List.length w)%nat ->
    exists codes, lookahead (cfg_lookahead c) t ob pos = Ok codes /\ choice_of w c limit ob pos codes.
  Proof.
    intro Hp. destruct (search_spec ob pos None Hp) as (found & E & HS). unfold choice_of. destruct (cfg_lookahead c); cbn [lookahead].
    - unfold la_greedy, best_candidate. rewrite E. cbn [obind]. eexists. split; [reflexivity|]. destruct found as [r|].
      + apply greedy_match. now apply HS.
      + apply greedy_literal; [|now apply nth_error_w]. now apply finds_none.
    - unfold la_gzip, best_candidate. rewrite E. cbn [obind]. destruct found as [r|].
      + assert (HF := proj1 (HS r) eq_refl). destruct (match_len _ _ _ _ HF) as (L1 & L2 & L3).
        destruct (gzip_loop_spec ob 300 pos r ltac:(lia) L2 ltac:(lia)) as (codes & EC & HC). exists codes. split; [exact EC|]. eapply lazy_match; eassumption.
      + eexists. split; [reflexivity|]. apply lazy_literal; [|now apply nth_error_w]. now apply finds_none.
    - unfold la_three_zip, best_candidate. rewrite E. cbn [obind]. destruct found as [r|].
      2: { eexists. split; [reflexivity|]. apply three_none; [|now apply nth_error_w]. now apply finds_none. }
      assert (HF := proj1 (HS r) eq_refl). destruct (match_len _ _ _ _ HF) as (L1 & L2 & L3). change (r_run r) with (ref_len r).
      destruct (N.ltb_spec 3 (ref_len r)) as [H3|H3].
      { eexists. split; [reflexivity|]. apply three_long; [exact HF|lia]. }
      assert (E3 : ref_len r = 3) by lia. rewrite E3. cbn [N.eqb Pos.eqb negb].
      destruct (search_spec ob (pos + 1) None ltac:(lia)) as (f2 & E2 & HS2). rewrite E2. cbn [obind].
      destruct (search_spec ob (pos + 2) None ltac:(lia)) as (f3 & E3' & HS3). rewrite E3'. cbn [obind].
      assert (NW0 := nth_error_w pos Hp). assert (NW1 := nth_error_w (pos + 1) ltac:(lia)).
      assert (U2 : forall x, f2 = Some x -> finds w c limit ob (pos + 1) x /\ ref_len x <= 258).
      { intros x ->. assert (F := proj1 (HS2 x) eq_refl). split; [exact F|]. apply (match_len _ _ _ _ F). }
      assert (U3 : forall x, f3 = Some x -> finds w c limit ob (pos + 2) x /\ ref_len x <= 258).
      { intros x ->. assert (F := proj1 (HS3 x) eq_refl). split; [exact F|]. apply (match_len _ _ _ _ F). }
      assert (Z2 : forall x y, f2 = Some x -> finds w c limit ob (pos + 1) y -> y = x) by (intros x y EX HY; apply HS2 in HY; congruence).
      assert (Z3 : forall x y, f3 = Some x -> finds w c limit ob (pos + 2) y -> y = x) by (intros x y EX HY; apply HS3 in HY; congruence).
      unfold option_filter. change r_run with ref_len in *.
      destruct f2 as [x2|]; [destruct (U2 _ eq_refl) as [F2 M2]; destruct (N.ltb_spec 3 (ref_len x2)) as [G2|G2]|];
      (destruct f3 as [x3|]; [destruct (U3 _ eq_refl) as [F3 M3]; destruct (N.ltb_spec 4 (ref_len x3)) as [G3|G3]|]);
      repeat match goal with |- context [ref_len ?a =? 258] => destruct (N.eqb_spec (ref_len a) 258) end;
      repeat match goal with |- context [ref_len ?a <? ref_len ?b] => destruct (N.ltb_spec (ref_len a) (ref_len b)) end;
      (eexists; split; [reflexivity|]);
      first [ eapply three_third; try eassumption; intros y HY; try (rewrite (Z2 _ _ eq_refl HY); lia); apply HS2 in HY; discriminate
            | eapply three_second; try eassumption; intros y HY; try (rewrite (Z3 _ _ eq_refl HY); lia); apply HS3 in HY; discriminate
            | eapply three_keep; try eassumption;
              [intros y HY; try (rewrite (Z2 _ _ eq_refl HY); lia); apply HS2 in HY; discriminate
              |intros y HY; try (rewrite (Z3 _ _ eq_refl HY); lia); apply HS3 in HY; discriminate] ].
  Qed.

  (** ** Whole encodings *)
  Lemma emitted_codes_len cs : emitted cs = codes_len cs.
  Proof. induction cs as [|x cs IH]; [reflexivity|]. cbn [emitted]. rewrite IH. unfold codes_len. cbn [map list_sum fold_right]. destruct x; reflexivity. Qed.

  Lemma feedback_runs cs : forall s,
    fold_left (feedback t) cs s = mkScanner (sc_obscured s ++ long_runs (insert_only_below_length (cfg_wams c)) (sc_pos s) cs) (sc_pos s + codes_len cs).
  Proof.
    induction cs as [|x cs IH]; intros [ob pos]; cbn [fold_left long_runs sc_obscured sc_pos].
    - rewrite app_nil_r. unfold codes_len. cbn [map list_sum fold_right]. now rewrite Nat.add_0_r.
    - rewrite IH. unfold feedback. cbn [sc_obscured sc_pos]. fold c. unfold codes_len. cbn [map list_sum fold_right].
      assert (EL : N.to_nat (emitted_bytes x) = code_len x) by (destruct x; reflexivity). rewrite EL.
      destruct (insert_only_below_length (cfg_wams c)) as [l|].
      + destruct x as [b|r]; cbn [sc_obscured sc_pos].
        * cbn [code_len app]. f_equal. apply eq_sym, Nat.add_assoc.
        * change (r_run r) with (ref_len r). destruct (N.leb_spec (ref_len r) l), (N.ltb_spec l (ref_len r)); try lia; cbn [sc_obscured sc_pos app]; rewrite <- ?app_assoc; cbn [app]; f_equal; apply eq_sym, Nat.add_assoc.
      + destruct x as [b|r]; cbn [sc_obscured sc_pos app]; f_equal; apply eq_sym, Nat.add_assoc.
  Qed.

  Lemma generates_encoder s codes :
    generates t s codes -> encoder w (insert_only_below_length (cfg_wams c)) (choice_of w c limit) (sc_obscured s) (sc_pos s) codes.
  Proof.
    intro HG. induction HG as [s HM|s gs cs HM HC HG IH].
    - rewrite (more_data_spec w) in HM by exact R. apply encoder_end. now apply Nat.ltb_ge in HM.
    - rewrite (more_data_spec w) in HM by exact R. apply Nat.ltb_lt in HM. destruct (choice_spec (sc_obscured s) (sc_pos s) HM) as (codes & E & H).
      unfold sc_codes in HC. fold c in HC. rewrite E in HC. injection HC as ->. rewrite feedback_runs in IH. cbn [sc_obscured sc_pos] in IH.
      apply encoder_step; [exact HM|exact H|exact IH].
  Qed.

  Lemma encoder_generates ob pos codes :
    encoder w (insert_only_below_length (cfg_wams c)) (choice_of w c limit) ob pos codes -> generates t (mkScanner ob pos) codes.
  Proof.
    induction 1 as [ob pos HP|ob pos gs cs HP HC HE IH].
    - apply generates_end. rewrite (more_data_spec w) by exact R. now apply Nat.ltb_ge.
    - destruct (choice_spec ob pos HP) as (codes & E & H). assert (EQ := choice_fun _ _ _ _ HC H). subst codes.
      apply generates_step; [rewrite (more_data_spec w) by exact R; now apply Nat.ltb_lt|exact E|]. rewrite feedback_runs. exact IH.
  Qed.

  Lemma encoder_iff codes : generates t (scanner t) codes <-> encoder_of w c limit (sc_pos (scanner t)) codes.
  Proof. split; [apply generates_encoder|apply encoder_generates]. Qed.
End Technique.

(** ** Properties *)
Lemma encoder_fun w c limit ob pos a : encoder w (insert_only_below_length (cfg_wams c)) (choice_of w c limit) ob pos a ->
  forall b, encoder w (insert_only_below_length (cfg_wams c)) (choice_of w c limit) ob pos b -> a = b.
Proof.
  induction 1 as [ob pos HP|ob pos gs cs HP HC HE IH]; intros b HB; inversion HB; subst; try lia; [reflexivity|].
  match goal with H : choice_of _ _ _ _ _ ?x |- _ => assert (EQ : gs = x) by (eapply (choice_fun w (mkTechnique c (mkAllRefs [] [] (mkBackMap (fun _ => 0%nat) []) limit)) ob pos); eassumption); subst x end.
  f_equal. now apply IH.
Qed.

Lemma C58_lemma_restore : forall config preroll data limit refs codes n,
  bytes_ok preroll -> bytes_ok data -> with_sixteen preroll data limit = Ok refs ->
  (restore (repeat Correct n) (mkTechnique config refs) = Ok codes
   <-> encoder_of (preroll ++ data) config limit (List.length preroll) codes /\ (List.length codes <= n)%nat).
Proof.
  intros config preroll data limit refs codes n B1 B2 EW. set (t := mkTechnique config refs).
  destruct (technique_of config _ _ _ _ EW) as (R & EP & EL & _). fold t in R, EP, EL.
  assert (ELI : ar_limit refs = limit).
  { destruct (with_sixteen_ok preroll data limit) as (a & E' & _ & X & _). rewrite EW in E'. injection E' as <-. exact X. }
  assert (HB : bytes_ok (preroll ++ data)) by now apply Forall_app.
  assert (EI := encoder_iff _ t R). cbn [t_config t_refs] in EI. change (t_config t) with config in EI. change (t_refs t) with refs in EI. rewrite ELI, EP in EI.
  assert (RC := fun cs HG => restore_corrects _ t R HB (S (sc_data_len t)) (scanner t) cs n HG ltac:(rewrite EP, app_length; lia) ltac:(rewrite EL; lia)).
  split.
  - intro E. destruct (generates_exists _ t R HB (S (List.length (preroll ++ data))) (scanner t)) as (cs & HG & _); [lia|rewrite EP, app_length; lia|].
    unfold restore in E. rewrite (RC _ HG) in E. destruct (Nat.leb_spec (List.length cs) n); [|discriminate]. injection E as <-. split; [now apply EI|assumption].
  - intros [HE HN]. apply EI in HE. unfold restore. rewrite (RC _ HE). destruct (Nat.leb_spec (List.length codes) n); [reflexivity|lia].
Qed.

Lemma all_correct hints : (forall h, In h hints -> h = Correct) <-> hints = repeat Correct (List.length hints).
Proof.
  split.
  - induction hints as [|h hints IH]; intro H; [reflexivity|]. cbn [List.length repeat]. rewrite (H h (or_introl eq_refl)). f_equal. apply IH. intros x HX. apply H. now right.
  - intros E h HI. rewrite E in HI. now apply repeat_spec in HI.
Qed.

Lemma C58_lemma_trace : forall config preroll data limit refs codes,
  bytes_ok preroll -> bytes_ok data -> with_sixteen preroll data limit = Ok refs -> encodes preroll data codes ->
  (trace codes (mkTechnique config refs) = Ok (repeat Correct (List.length codes))
   <-> encoder_of (preroll ++ data) config limit (List.length preroll) codes).
Proof.
  intros config preroll data limit refs codes B1 B2 EW HE. set (t := mkTechnique config refs).
  destruct (technique_of config _ _ _ _ EW) as (R & EP & EL & _). fold t in R, EP, EL.
  assert (ELI : ar_limit refs = limit).
  { destruct (with_sixteen_ok preroll data limit) as (a & E' & _ & X & _). rewrite EW in E'. injection E' as <-. exact X. }
  assert (EI := encoder_iff _ t R). change (t_config t) with config in EI. change (t_refs t) with refs in EI. rewrite ELI, EP in EI. rewrite <- EI.
  destruct (trace_lemma config preroll data limit refs codes B1 B2 EW HE) as (hints & E & L & _ & HC & _). fold t in E, HC. rewrite <- HC, all_correct, E, L.
  split; congruence.
Qed.

(** ** The gzip levels *)
Lemma gzip_config level c : Config_gzip level = Ok c ->
  forall w pos codes, encoder_of w c (match insert_only_below_length (cfg_wams c) with Some l => l | None => 65535 end) pos codes <-> gzip_greedy w level pos codes.
Proof.
  intros EC w pos codes. assert (HL : 1 <= level <= 9).
  { unfold Config_gzip in EC. destruct ((1 <=? level) && (level <=? 9)) eqn:X; [lia|discriminate]. }
  assert (HX := proj2 (C53_lemma level ltac:(lia))).
  destruct (nth_error gzip_levels (N.to_nat (level - 1))) as [[[[good lazy_] nice_] chain_]|] eqn:EN.
  2: { exfalso. apply nth_error_None in EN. change (List.length gzip_levels) with 9%nat in EN. lia. }
  destruct (HX _ _ _ _ (proj1 HL) eq_refl) as (c' & EC' & H1 & H2 & H3 & H4 & _). rewrite EC in EC'. injection EC' as <-.
  assert (H0 : cfg_lookahead c = LGreedy).
  { unfold Config_gzip in EC. destruct (_ && _); [|discriminate]. destruct (get_idx _ _); [|discriminate..]. injection EC as <-. reflexivity. }
  assert (ES : plain_search c (match insert_only_below_length (cfg_wams c) with Some l => l | None => 65535 end)
               = mkSearch (N.to_nat (if level <? 4 then lazy_ else 65535)) (N.to_nat chain_) nice_ (4 <=? level)).
  { unfold plain_search. rewrite H1, H2, H4. f_equal.
    - destruct (level <? 4); reflexivity.
    - rewrite <- H3. now rewrite Nnat.Nat2N.id.
    - destruct (N.ltb_spec level 4), (N.leb_spec 4 level); cbn [refuses_far_threes]; try reflexivity; lia. }
  unfold encoder_of, choice_of, finds. rewrite H0, ES, H4. split.
  - intro H. exists good, lazy_, nice_, chain_. split; [apply HL|]. split; [exact EN|]. exact H.
  - intros (g & l & n & k & _ & EN' & H). rewrite EN in EN'. injection EN' as <- <- <- <-. exact H.
Qed.

Lemma tracer_try_trace config preroll data codes hints :
  tracer_try config preroll data codes = Ok hints ->
  exists refs, with_sixteen preroll data (match insert_only_below_length (cfg_wams config) with Some l => l | None => 65535 end) = Ok refs
    /\ trace codes (mkTechnique config refs) = Ok hints.
Proof.
  unfold tracer_try. destruct (with_sixteen _ _ _) as [refs| | |]; cbn [obind]; try discriminate. unfold validate.
  destruct (trace codes _) as [tr| | |] eqn:ET; cbn [obind]; try discriminate. destruct (restore _ _); cbn [obind]; try discriminate.
  destruct (slice_eqb _ _ _); cbn [obind]; try discriminate. destruct (st_verify tr); cbn [obind]; try discriminate. intros [= <-]. eauto.
Qed.

Lemma gzip_levels_config level : 1 <= level <= 9 -> exists c, Config_gzip level = Ok c.
Proof.
  intro HL. assert (HX := proj2 (C53_lemma level ltac:(lia))).
  destruct (nth_error gzip_levels (N.to_nat (level - 1))) as [[[[good lazy_] nice_] chain_]|] eqn:EN.
  - destruct (HX _ _ _ _ (proj1 HL) eq_refl) as (c & E & _). eauto.
  - exfalso. apply nth_error_None in EN. change (List.length gzip_levels) with 9%nat in EN. lia.
Qed.

Lemma C58_lemma_gzip : forall level preroll data codes,
  1 <= level <= 9 -> bytes_ok preroll -> bytes_ok data -> Forall code_ok codes -> encodes preroll data codes ->
  (try_gzip level preroll data codes = Ok (repeat Correct (List.length codes))
   <-> gzip_greedy (preroll ++ data) level (List.length preroll) codes).
Proof.
  intros level preroll data codes HL B1 B2 HC HE. destruct (gzip_levels_config level HL) as (c & EC).
  rewrite <- (gzip_config level c EC). unfold try_gzip. rewrite EC. cbn [obind].
  set (limit := match insert_only_below_length (cfg_wams c) with Some l => l | None => 65535 end).
  destruct (with_sixteen_ok preroll data limit) as (refs & EW & _).
  rewrite <- (C58_lemma_trace c preroll data limit refs codes B1 B2 EW HE). split.
  - intro E. apply tracer_try_trace in E. destruct E as (refs' & EW' & ET). fold limit in EW'. rewrite EW in EW'. injection EW' as <-. exact ET.
  - intro ET. apply (tracer_try_ok c preroll data codes refs); auto. right. intro HI. apply repeat_spec in HI. discriminate.
Qed.

Lemma C58_lemma_unique : forall level preroll data, 1 <= level <= 9 -> bytes_ok preroll -> bytes_ok data ->
  exists codes, gzip_greedy (preroll ++ data) level (List.length preroll) codes
    /\ encodes preroll data codes /\ Forall code_ok codes
    /\ forall other, gzip_greedy (preroll ++ data) level (List.length preroll) other -> other = codes.
Proof.
  intros level preroll data HL B1 B2. destruct (gzip_levels_config level HL) as (c & EC).
  set (limit := match insert_only_below_length (cfg_wams c) with Some l => l | None => 65535 end).
  destruct (with_sixteen_ok preroll data limit) as (refs & EW & _).
  destruct (C39_lemma c preroll data limit refs B1 B2 EW) as [HX HD]. destruct (HX (List.length data) (le_n _)) as (codes & E).
  exists codes. assert (HG := proj1 (proj1 (C58_lemma_restore c preroll data limit refs codes _ B1 B2 EW) E)).
  split; [now apply (gzip_config level c EC)|]. split; [eapply HD, E|]. split; [eapply HD, E|]. intros other HO. apply (gzip_config level c EC) in HO.
  eapply encoder_fun; eassumption.
Qed.

Lemma C59_lemma : forall config refs codes,
  let s := fold_left (feedback (mkTechnique config refs)) codes (scanner (mkTechnique config refs)) in
  sc_pos s = (List.length (ar_preroll refs) + codes_len codes)%nat
  /\ sc_obscured s = long_runs (insert_only_below_length (cfg_wams config)) (List.length (ar_preroll refs)) codes.
Proof. intros config refs codes s. subst s. rewrite feedback_runs. split; reflexivity. Qed.

(** ** The documented limit *)
Lemma filter_nil {A} (f : A -> bool) l : (forall x, In x l -> f x = false) -> filter f l = [].
Proof. induction l as [|x l IH]; intro H; cbn [filter]; [reflexivity|]. rewrite (H x (or_introl eq_refl)). apply IH. intros y HY. apply H. now right. Qed.

Lemma candidates_wide w runs pos a b : (32768 <= N.of_nat a) -> (32768 <= N.of_nat b) -> candidates w a runs pos = candidates w b runs pos.
Proof.
  assert (X : forall n, 32768 <= N.of_nat n -> candidates w n runs pos =
    filter (fun q => (N.of_nat (pos - q) <=? 32768) && (if list_eq_dec N.eq_dec (three w q) (three w pos) then true else false))
      (filter (fun q => (hash3 w q =? hash3 w pos) && negb (hidden runs q)) (rev (seq 1 (pos - 1))))).
  2: { intros HA HB. now rewrite (X a), (X b). }
  intros n Hn. unfold candidates. set (l := filter _ (rev _)).
  rewrite <- (firstn_skipn n l) at 2. rewrite filter_app. rewrite (filter_nil _ (skipn n l)); [now rewrite app_nil_r|].
  assert (S : StronglySorted (fun a b => (b < a)%nat) l) by apply sorted_filter, sorted_rev_seq.
  assert (I : forall q, In q l -> (q < pos)%nat).
  { intros q HQ. subst l. apply filter_In in HQ. destruct HQ as [HQ _]. rewrite <- in_rev, in_seq in HQ. lia. }
  assert (D : forall n l b, StronglySorted (fun a b => (b < a)%nat) l -> (forall q, In q l -> (q < b)%nat) -> forall q, In q (skipn n l) -> (q + n < b)%nat).
  { clear. induction n as [|n IH]; intros l b S I q HQ; cbn [skipn] in HQ; [apply I in HQ; lia|]. destruct l as [|x l]; [destruct HQ|].
    inversion S as [|? ? S1 S2]; subst. rewrite Forall_forall in S2. assert (HX := I x (or_introl eq_refl)).
    assert (Y := IH l x S1 S2 q HQ). lia. }
  intros q HQ. assert (Y := D n l pos S I q HQ). destruct (N.leb_spec (N.of_nat (pos - q)) 32768); [lia|reflexivity].
Qed.

Lemma encoder_ext w limit (P Q : list (nat * N) -> nat -> list Code -> Prop) :
  (forall runs pos codes, P runs pos codes -> Q runs pos codes) ->
  forall runs pos codes, encoder w limit P runs pos codes -> encoder w limit Q runs pos codes.
Proof.
  intros HPQ runs pos codes H. induction H; [now apply encoder_end|]. apply encoder_step; auto.
Qed.

Lemma greedy_ext w (f g : nat -> Ref -> Prop) pos codes : (forall r, f pos r <-> g pos r) -> greedy_choice w f pos codes -> greedy_choice w g pos codes.
Proof.
  intros H HC. inversion HC; subst; [apply greedy_match; now apply H|apply greedy_literal; [|assumption]]. intros r HR. apply H in HR.
  match goal with X : no_match _ |- _ => exact (X r HR) end.
Qed.

Lemma match_at_wide w a b k n f runs pos r :
  candidates w a runs pos = candidates w b runs pos -> match_at w (mkSearch a k n f) runs pos r <-> match_at w (mkSearch b k n f) runs pos r.
Proof. intro E. unfold match_at. cbn [nearest chain nice no_far_threes]. now rewrite E. Qed.

(** A limit of at least the position is no limit. *)
Lemma candidates_all w runs pos a b : (pos <= a)%nat -> (pos <= b)%nat -> candidates w a runs pos = candidates w b runs pos.
Proof.
  intros HA HB. unfold candidates. set (l := filter _ (rev _)). assert (HL : (List.length l <= pos)%nat).
  { transitivity (List.length (rev (seq 1 (pos - 1)))); [|rewrite rev_length, seq_length; lia]. subst l. generalize (rev (seq 1 (pos - 1))). intro l.
    induction l as [|x l IH]; cbn [filter List.length]; [lia|]. destruct (_ && _); cbn [List.length]; lia. }
  rewrite !firstn_all2 by lia. reflexivity.
Qed.

Lemma candidates_no_limit w runs pos a : 32768 <= N.of_nat a -> (pos <= List.length w)%nat -> candidates w a runs pos = candidates w (List.length w) runs pos.
Proof.
  intros HA HP. transitivity (candidates w (Nat.max a (List.length w)) runs pos); [apply candidates_wide; lia|apply candidates_all; lia].
Qed.

Lemma documented_high w level pos codes : 4 <= level -> gzip_greedy w level pos codes <-> documented_greedy w level pos codes.
Proof.
  intro HL. assert (X : (level <? 4) = false) by lia. unfold gzip_greedy, documented_greedy. rewrite X.
  assert (Y : forall n k f, forall runs p cs, (p < List.length w)%nat ->
    greedy_choice w (match_at w (mkSearch (N.to_nat 65535) k n f) runs) p cs <-> greedy_choice w (match_at w (mkSearch (List.length w) k n f) runs) p cs).
  { intros n k f runs p cs HP. split; apply greedy_ext; intro r; apply match_at_wide; [|symmetry]; apply candidates_no_limit; lia. }
  assert (Z : forall lim (P Q : list (nat * N) -> nat -> list Code -> Prop), (forall runs p cs, (p < List.length w)%nat -> P runs p cs -> Q runs p cs) ->
    forall runs p cs, encoder w lim P runs p cs -> encoder w lim Q runs p cs).
  { intros lim P Q HPQ runs p cs H. induction H; [now apply encoder_end|]. apply encoder_step; auto. }
  split; intros (g & l & n & k & H1 & H2 & H3); exists g, l, n, k; (split; [exact H1|]); (split; [exact H2|]); revert H3; apply Z; intros runs p cs HP; apply Y; exact HP.
Qed.

Lemma C60_lemma : forall level preroll data codes,
  4 <= level <= 9 -> bytes_ok preroll -> bytes_ok data -> Forall code_ok codes -> encodes preroll data codes ->
  (try_gzip level preroll data codes = Ok (repeat Correct (List.length codes))
   <-> documented_greedy (preroll ++ data) level (List.length preroll) codes).
Proof.
  intros level preroll data codes HL B1 B2 HC HE. rewrite <- documented_high by lia. apply C58_lemma_gzip; auto. lia.
Qed.

(** The limit given to the dictionary makes no difference once it reaches the length of the data. *)
Lemma encoder_documented level c w pos codes : Config_gzip level = Ok c ->
  encoder_of w c (N.of_nat (List.length w)) pos codes -> documented_greedy w level pos codes.
Proof.
  intros EC. assert (HL : 1 <= level <= 9).
  { unfold Config_gzip in EC. destruct ((1 <=? level) && (level <=? 9)) eqn:X; [lia|discriminate]. }
  assert (HX := proj2 (C53_lemma level ltac:(lia))).
  destruct (nth_error gzip_levels (N.to_nat (level - 1))) as [[[[good lazy_] nice_] chain_]|] eqn:EN.
  2: { exfalso. apply nth_error_None in EN. change (List.length gzip_levels) with 9%nat in EN. lia. }
  destruct (HX _ _ _ _ (proj1 HL) eq_refl) as (c' & EC' & H1 & H2 & H3 & H4 & _). rewrite EC in EC'. injection EC' as <-.
  assert (H0 : cfg_lookahead c = LGreedy).
  { unfold Config_gzip in EC. destruct (_ && _); [|discriminate]. destruct (get_idx _ _); [|discriminate..]. injection EC as <-. reflexivity. }
  assert (ES : plain_search c (N.of_nat (List.length w)) = mkSearch (List.length w) (N.to_nat chain_) nice_ (4 <=? level)).
  { unfold plain_search. rewrite H1, H2. f_equal.
    - now rewrite Nnat.Nat2N.id.
    - rewrite <- H3. now rewrite Nnat.Nat2N.id.
    - destruct (N.ltb_spec level 4), (N.leb_spec 4 level); cbn [refuses_far_threes]; try reflexivity; lia. }
  unfold encoder_of, choice_of, finds. rewrite H0, ES, H4. intro H. exists good, lazy_, nice_, chain_. split; [apply HL|]. split; [exact EN|]. exact H.
Qed.

(** Running the model to establish the specification. *)
Lemma encoder_run c d limit n cs : bytes_ok d ->
  (refs <-? with_sixteen [] d limit ;; restore (repeat Correct n) (mkTechnique c refs)) = Ok cs -> encoder_of d c limit 0 cs.
Proof.
  intros B E. destruct (with_sixteen [] d limit) as [refs| | |] eqn:EW; cbn [obind] in E; try discriminate.
  exact (proj1 (proj1 (C58_lemma_restore c [] d _ refs cs n (Forall_nil _) B EW) E)).
Qed.
Lemma documented_run level d n cs : bytes_ok d ->
  (c <-? Config_gzip level ;; refs <-? with_sixteen [] d (N.of_nat (List.length d)) ;; restore (repeat Correct n) (mkTechnique c refs)) = Ok cs ->
  documented_greedy d level 0 cs.
Proof.
  intros B E. destruct (Config_gzip level) as [c| | |] eqn:EC; cbn [obind] in E; try discriminate.
  apply (encoder_documented level c); [exact EC|]. apply (encoder_run c d _ n cs B E).
Qed.

Lemma C60_lemma_refuted : exists level data codes hints,
  1 <= level <= 9 /\ bytes_ok data /\ Forall code_ok codes /\ encodes [] data codes
  /\ documented_greedy data level 0 codes
  /\ try_gzip level [] data codes = Ok hints /\ ~ (forall h, In h hints -> h = Correct).
Proof.
  set (d := [0; 97;98;99;90; 97;98;99;1; 97;98;99;2; 97;98;99;3; 97;98;99;4; 97;98;99;5; 97;98;99;6; 97;98;99;90]).
  set (cs := [Literal 0; Literal 97; Literal 98; Literal 99; Literal 90; Reference (mkRef 4 0); Literal 1; Reference (mkRef 4 0);
              Literal 2; Reference (mkRef 4 0); Literal 3; Reference (mkRef 4 0); Literal 4; Reference (mkRef 4 0);
              Literal 5; Reference (mkRef 4 0); Literal 6; Reference (mkRef 28 1)]).
  assert (B : bytes_ok d) by (repeat constructor; lia).
  exists 2, d, cs. eexists. split; [lia|]. split; [exact B|].
  split; [repeat constructor; unfold ref_ok; cbn; lia|]. split; [vm_compute; reflexivity|].
  split; [|split; [vm_compute; reflexivity|]].
  - apply (documented_run 2 d 18 cs B). vm_compute. reflexivity.
  - intro H. specialize (H (Actually (mkRef 28 1))). cbn [In] in H. assert (X : Actually (mkRef 28 1) = Correct) by (apply H; tauto). discriminate.
Qed.

(** ** Lazy matching *)
Lemma lazy_from_ext w (f g : N -> nat -> Ref -> Prop) (P : N -> Prop) :
  (forall len p r, P len -> (f len p r <-> g len p r)) -> (forall len p r, f len p r -> P (ref_len r)) ->
  forall p r codes, P (ref_len r) -> lazy_from w f p r codes -> lazy_from w g p r codes.
Proof.
  intros HFG HP p r codes HR H. induction H as [p r H|p r r' b codes H1 H2 H3 H4 IH].
  - apply lazy_take. intros r' H'. apply H. now apply HFG.
  - eapply lazy_defer; eauto. now apply HFG.
Qed.

Lemma C61_lemma_refuted : exists level data codes hints,
  4 <= level <= 9 /\ bytes_ok data /\ Forall code_ok codes /\ encodes [] data codes
  /\ gzip_lazy data level 0 codes
  /\ try_gzip level [] data codes = Ok hints /\ ~ (forall h, In h hints -> h = Correct).
Proof.
  set (d := [0; 97;98;99;1; 98;99;100;101;2; 97;98;99;100;101]).
  set (cs := [Literal 0; Literal 97; Literal 98; Literal 99; Literal 1; Literal 98; Literal 99; Literal 100; Literal 101; Literal 2; Literal 97; Reference (mkRef 6 1)]).
  assert (B : bytes_ok d) by (repeat constructor; lia).
  exists 8, d, cs. eexists. split; [lia|]. split; [exact B|].
  split; [repeat constructor; unfold ref_ok; cbn; lia|]. split; [vm_compute; reflexivity|].
  split; [|split; [vm_compute; reflexivity|]].
  - set (c := mkConfig true LGzip DropFarThrees (mkWams 258 (N.to_nat 1024) None None)).
    assert (H : encoder_of d c 15 0 cs).
    { apply (encoder_run c d 15 12 cs B). vm_compute. reflexivity. }
    unfold encoder_of in H. exists 32, 128, 258, 1024. split; [lia|]. split; [reflexivity|]. revert H. apply encoder_ext. intros runs p codes.
    unfold choice_of. cbn [cfg_lookahead c]. intro H. inversion H as [r ? H1 H2|b H1 H2]; subst; [|apply lazy_literal; assumption].
    apply lazy_match with (r := r); [exact H1|]. revert H2. apply lazy_from_ext with (P := fun len => len < 32).
    + intros len p' r' HL. unfold finds_next, next_search. cbn [cfg_wams wams_lookahead c]. assert (X : (32 <=? len) = false) by lia. rewrite X. split.
      * intros (s & [= <-] & HM). split; [lia|exact HM].
      * intros [_ HM]. eexists. split; [reflexivity|exact HM].
    + intros len p' r' (s & _ & HM). apply match_len in HM. change (List.length d) with 15%nat in HM. lia.
    + apply match_len in H1. change (List.length d) with 15%nat in H1. lia.
  - intro H. specialize (H ActuallyLiteral). cbn [In] in H. assert (X : ActuallyLiteral = Correct) by (apply H; tauto). discriminate.
Qed.

Lemma C61_lemma_greedy : forall level c preroll data limit refs runs pos,
  Config_gzip level = Ok c -> with_sixteen preroll data limit = Ok refs -> (pos < List.length (preroll ++ data))%nat ->
  exists code, sc_codes (mkTechnique c refs) (mkScanner runs pos) = Ok [code].
Proof.
  intros level c preroll data limit refs runs pos EC EW HP. destruct (technique_of c _ _ _ _ EW) as (R & _).
  assert (H0 : cfg_lookahead c = LGreedy).
  { unfold Config_gzip in EC. destruct (_ && _); [|discriminate]. destruct (get_idx _ _); [|discriminate..]. injection EC as <-. reflexivity. }
  destruct (search_spec _ _ R runs pos None HP) as (found & E & _).
  unfold sc_codes. cbn [t_config sc_obscured sc_pos]. rewrite H0. cbn [lookahead]. unfold la_greedy, best_candidate. rewrite E. cbn [obind]. eauto.
Qed.

(** ** Apathy *)
Lemma C62_lemma : forall config preroll data limit refs la runs pos known,
  with_sixteen preroll data limit = Ok refs -> wams_lookahead (cfg_wams config) = Some la ->
  (pos < List.length (preroll ++ data))%nat -> abort_above_length la <= known -> known <> apathetic_above_length la ->
  exists literal found, best_candidate_better_than (mkTechnique config refs) runs pos (Some known) = Ok (literal, found)
    /\ nth_error (preroll ++ data) pos = Some literal
    /\ forall r, found = Some r <->
         match_at (preroll ++ data)
           (mkSearch (N.to_nat limit)
              (if apathetic_above_length la <=? known then (limit_count_of_distances (cfg_wams config) / 4)%nat
               else limit_count_of_distances (cfg_wams config))
              (quit_search_above_length (cfg_wams config)) (match cfg_picker config with Longest => false | DropFarThrees => true end))
           runs pos r.
Proof.
  intros config preroll data limit refs la runs pos known EW EL HP HA HK. destruct (technique_of config _ _ _ _ EW) as (R & _).
  assert (ELI : ar_limit refs = limit).
  { destruct (with_sixteen_ok preroll data limit) as (a & E' & _ & X & _). rewrite EW in E'. injection E' as <-. exact X. }
  destruct (search_spec _ _ R runs pos (Some known) HP) as (found & E & HS). exists (nth pos (preroll ++ data) 0), found. split; [exact E|].
  split; [now apply nth_error_nth'|]. intro r. rewrite HS. unfold finds_next, next_search. cbn [t_config t_refs]. rewrite EL, ELI.
  assert (X : (known <? abort_above_length la) = false) by lia. rewrite X.
  assert (Y : (apathetic_above_length la <? known) = (apathetic_above_length la <=? known)) by lia. rewrite Y.
  split; [intros (s & [= <-] & H); exact H|]. intro H. eexists. split; [reflexivity|exact H].
Qed.

Lemma next_run d c limit pos known refs x : with_sixteen [] d limit = Ok refs ->
  (refs <-? with_sixteen [] d limit ;; best_candidate_better_than (mkTechnique c refs) [] pos (Some known)) = x ->
  best_candidate_better_than (mkTechnique c refs) [] pos (Some known) = x.
Proof. intros EW E. rewrite EW in E. exact E. Qed.
Lemma search_run d c limit pos b r :
  (refs <-? with_sixteen [] d limit ;; if Nat.ltb pos (List.length d) then best_candidate (mkTechnique c refs) [] pos else Diverge) = Ok (b, Some r) ->
  finds d c limit [] pos r.
Proof.
  intro E. destruct (with_sixteen_ok [] d limit) as (refs & EW & R & EL & _). rewrite EW in E. cbn [obind] in E.
  destruct (Nat.ltb_spec pos (List.length d)) as [HP|]; [|discriminate].
  destruct (search_spec d (mkTechnique c refs) R [] pos None HP) as (found & E' & HS). unfold best_candidate in E. rewrite E in E'. injection E' as _ <-.
  assert (X := proj1 (HS r) eq_refl). cbn [t_config t_refs] in X. rewrite EL in X. exact X.
Qed.

(** A match of exactly the good length in hand: the search is not cut to a quarter, so it finds the longer
    match behind the nearer one. *)
Lemma C62_lemma_refuted : exists config data refs la pos known literal r,
  with_sixteen [] data 65535 = Ok refs /\ wams_lookahead (cfg_wams config) = Some la
  /\ abort_above_length la <= known /\ apathetic_above_length la <= known
  /\ best_candidate_better_than (mkTechnique config refs) [] pos (Some known) = Ok (literal, Some r)
  /\ ~ match_at data
         (mkSearch (N.to_nat 65535) (limit_count_of_distances (cfg_wams config) / 4)
            (quit_search_above_length (cfg_wams config)) (match cfg_picker config with Longest => false | DropFarThrees => true end))
         [] pos r.
Proof.
  set (d := [0; 1; 2; 3; 4; 5; 1; 2; 3; 9; 1; 2; 3; 4]).
  destruct (with_sixteen_ok [] d 65535) as (refs & EW & _).
  exists (mkConfig true LGzip Longest (mkWams 16 4 None (Some (mkLookaheadConfig 4 4)))), d, refs, (mkLookaheadConfig 4 4), 10%nat, 4, 1, (mkRef 9 1).
  split; [exact EW|]. split; [reflexivity|]. split; [cbn; lia|]. split; [cbn; lia|]. split.
  - apply (next_run d _ 65535 10 4); [exact EW|]. vm_compute. reflexivity.
  - cbn [cfg_wams limit_count_of_distances quit_search_above_length cfg_picker].
    assert (H : finds d (mkConfig true LGreedy Longest (mkWams 16 1 None None)) 65535 [] 10 (mkRef 4 0)).
    { apply (search_run d _ 65535 10 1). vm_compute. reflexivity. }
    intro H'. assert (E := match_at_unique _ _ _ _ _ _ H H'). discriminate.
Qed.

(** ** The first byte *)
Lemma bug_codes l p wams refs s a b :
  sc_codes (mkTechnique (mkConfig a l p wams) refs) s = sc_codes (mkTechnique (mkConfig b l p wams) refs) s.
Proof. destruct a, b; reflexivity. Qed.

Lemma bug_feedback l p wams refs a b codes : forall s,
  fold_left (feedback (mkTechnique (mkConfig a l p wams) refs)) codes s = fold_left (feedback (mkTechnique (mkConfig b l p wams) refs)) codes s.
Proof. induction codes as [|c codes IH]; intro s; [reflexivity|]. cbn [fold_left]. rewrite IH. reflexivity. Qed.

Lemma bug_trace l p wams refs a b fuel : forall s codes,
  trace_loop fuel (mkTechnique (mkConfig a l p wams) refs) s codes = trace_loop fuel (mkTechnique (mkConfig b l p wams) refs) s codes.
Proof.
  induction fuel as [|fuel IH]; intros s codes; [reflexivity|]. cbn [trace_loop].
  change (more_data (mkTechnique (mkConfig a l p wams) refs) s) with (more_data (mkTechnique (mkConfig b l p wams) refs) s).
  destruct (more_data _ s); [|reflexivity]. rewrite (bug_codes l p wams refs s a b). destruct (sc_codes _ s) as [gs|e|m|]; cbn [obind]; try reflexivity.
  destruct gs as [|g gs]; [reflexivity|]. destruct (shared_prefix (g :: gs) codes) as [ms rest]. rewrite (bug_feedback l p wams refs a b ms s). rewrite IH.
  destruct (Nat.eqb _ _); [reflexivity|]. destruct rest as [|c rest]; [reflexivity|]. rewrite IH. reflexivity.
Qed.

Lemma bug_guesses l p wams refs a b gs : forall s tr,
  restore_guesses (mkTechnique (mkConfig a l p wams) refs) gs s tr = restore_guesses (mkTechnique (mkConfig b l p wams) refs) gs s tr.
Proof.
  induction gs as [|g gs IH]; intros s [|h tr]; cbn [restore_guesses]; try reflexivity.
  change (byte_at (mkTechnique (mkConfig a l p wams) refs)) with (byte_at (mkTechnique (mkConfig b l p wams) refs)).
  change (feedback (mkTechnique (mkConfig a l p wams) refs)) with (feedback (mkTechnique (mkConfig b l p wams) refs)).
  destruct (match h with Correct => Ok g | ActuallyLiteral => _ | Actually r => _ end) as [o|e|m|]; cbn [obind]; try reflexivity. destruct h; try reflexivity. rewrite IH. reflexivity.
Qed.

Lemma bug_restore l p wams refs a b fuel : forall s tr,
  restore_loop fuel (mkTechnique (mkConfig a l p wams) refs) s tr = restore_loop fuel (mkTechnique (mkConfig b l p wams) refs) s tr.
Proof.
  induction fuel as [|fuel IH]; intros s tr; [reflexivity|]. cbn [restore_loop].
  change (more_data (mkTechnique (mkConfig a l p wams) refs) s) with (more_data (mkTechnique (mkConfig b l p wams) refs) s).
  destruct (more_data _ s); [|reflexivity]. rewrite (bug_codes l p wams refs s a b). destruct (sc_codes _ s) as [gs|e|m|]; cbn [obind]; try reflexivity.
  destruct gs as [|g gs]; [reflexivity|]. rewrite (bug_guesses l p wams refs a b (g :: gs) s tr). destruct (restore_guesses _ _ _ _) as [[[x y] z]|e|m|]; cbn [obind]; try reflexivity.
  rewrite IH. reflexivity.
Qed.

Lemma C63_lemma : forall l p wams a b,
  (forall refs s, sc_codes (mkTechnique (mkConfig a l p wams) refs) s = sc_codes (mkTechnique (mkConfig b l p wams) refs) s)
  /\ (forall refs codes, trace codes (mkTechnique (mkConfig a l p wams) refs) = trace codes (mkTechnique (mkConfig b l p wams) refs))
  /\ (forall refs hints, restore hints (mkTechnique (mkConfig a l p wams) refs) = restore hints (mkTechnique (mkConfig b l p wams) refs))
  /\ (forall preroll data codes, tracer_try (mkConfig a l p wams) preroll data codes = tracer_try (mkConfig b l p wams) preroll data codes).
Proof.
  intros l p wams a b.
  assert (T : forall refs codes, trace codes (mkTechnique (mkConfig a l p wams) refs) = trace codes (mkTechnique (mkConfig b l p wams) refs)) by (intros; apply bug_trace).
  assert (R : forall refs hints, restore hints (mkTechnique (mkConfig a l p wams) refs) = restore hints (mkTechnique (mkConfig b l p wams) refs)) by (intros; apply bug_restore).
  split; [intros; apply bug_codes|]. split; [exact T|]. split; [exact R|].
  intros preroll data codes. unfold tracer_try, validate. cbn [cfg_wams]. destruct (with_sixteen _ _ _) as [refs|e|m|]; cbn [obind]; try reflexivity.
  rewrite T. destruct (trace codes _) as [h|e|m|]; cbn [obind]; try reflexivity. now rewrite R.
Qed.

Lemma codes_run d c limit refs s x : with_sixteen [] d limit = Ok refs ->
  (refs <-? with_sixteen [] d limit ;; sc_codes (mkTechnique c refs) s) = x -> sc_codes (mkTechnique c refs) s = x.
Proof. intros EW E. rewrite EW in E. exact E. Qed.

(** The three bytes at position 4 are those at the start of the data, and the guess is a literal. *)
Lemma C63_lemma_refuted : exists config data refs,
  first_byte_bug config = false /\ Config_spicy = Ok config /\ with_sixteen [] data 65535 = Ok refs
  /\ longest_match data 4 4 3 /\ sc_codes (mkTechnique config refs) (mkScanner [] 4) = Ok [Literal 1].
Proof.
  set (d := [1; 2; 3; 9; 1; 2; 3; 8]). destruct (with_sixteen_ok [] d 65535) as (refs & EW & _).
  eexists. exists d, refs. split; [|split; [reflexivity|]]; [reflexivity|]. split; [exact EW|]. split.
  - split; [lia|]. split; [cbn; lia|]. split; [|right; right; cbn; congruence]. intros [|[|[|i]]] HI; cbn [d Nat.add Nat.sub nth_error]; try reflexivity; lia.
  - apply (codes_run d _ 65535); [exact EW|]. vm_compute. reflexivity.
Qed.

(** The exact rule, for every length in hand, including one exactly equal to the good length. *)
Lemma C62_exactly_lemma : forall config preroll data limit refs la runs pos known,
  with_sixteen preroll data limit = Ok refs -> wams_lookahead (cfg_wams config) = Some la ->
  (pos < List.length (preroll ++ data))%nat ->
  exists literal found, best_candidate_better_than (mkTechnique config refs) runs pos (Some known) = Ok (literal, found)
    /\ nth_error (preroll ++ data) pos = Some literal
    /\ forall r, found = Some r <->
         abort_above_length la <= known
         /\ match_at (preroll ++ data)
              (mkSearch (N.to_nat limit)
                 (if apathetic_above_length la <? known then (limit_count_of_distances (cfg_wams config) / 4)%nat
                  else limit_count_of_distances (cfg_wams config))
                 (quit_search_above_length (cfg_wams config)) (match cfg_picker config with Longest => false | DropFarThrees => true end))
              runs pos r.
Proof.
  intros config preroll data limit refs la runs pos known EW EL HP. destruct (technique_of config _ _ _ _ EW) as (R & _).
  assert (ELI : ar_limit refs = limit).
  { destruct (with_sixteen_ok preroll data limit) as (a & E' & _ & X & _). rewrite EW in E'. injection E' as <-. exact X. }
  destruct (search_spec _ _ R runs pos (Some known) HP) as (found & E & HS). exists (nth pos (preroll ++ data) 0), found. split; [exact E|].
  split; [now apply nth_error_nth'|]. intro r. rewrite HS. unfold finds_next, next_search. cbn [t_config t_refs]. rewrite EL, ELI.
  destruct (N.ltb_spec known (abort_above_length la)) as [X|X].
  - split; [intros (s & [=] & _)|intros (Y & _); lia].
  - split; [intros (s & [= <-] & H); split; [lia|exact H]|]. intros (_ & H). eexists. split; [reflexivity|exact H].
Qed.
