(** Proofs of C102. *)
From Verif Require Import Base M_bit M_lib M_all_refs M_technique M_trace Spec Clients Spec_encoder Clients_encoder Clients_rename
  L_bits L_ring L_search L_P_search L_tech L_P_tech L_trace L_strace L_P_trace L_P_encoder L_P_exact L_P_repeat.
From Coq Require Import ZArith ZifyBool ZifyNat ZifyN.
Ltac Zify.zify_post_hook ::= Z.div_mod_to_equations.
Local Open Scope N_scope.
Local Open Scope model_scope.

Lemma forall2_impl {A B} (P Q : A -> B -> Prop) l l' : (forall a b, P a b -> Q a b) -> Forall2 P l l' -> Forall2 Q l l'.
Proof. intro H. induction 1; constructor; auto. Qed.

Section Rename.
  Context (f : N -> N) (RF : renaming f).

  Lemma rn_bytes w : bytes_ok w -> bytes_ok (map f w).
  Proof. intro H. apply Forall_map. eapply Forall_impl; [|exact H]. intros a Ha. now apply (proj1 RF). Qed.
  Lemma rn_eq l : forall l', bytes_ok l -> bytes_ok l' -> (map f l = map f l' <-> l = l').
  Proof.
    induction l as [|a l IH]; intros [|b l'] HA HB; cbn [map]; try (split; discriminate); [split; reflexivity|].
    inversion HA; inversion HB; subst. split.
    - intro E. injection E as E1 E2. f_equal; [now apply (proj2 RF)|]. now apply IH.
    - intro E. injection E as -> ->. reflexivity.
  Qed.
  Lemma rn_nth w a b : bytes_ok w -> (nth_error (map f w) a = nth_error (map f w) b <-> nth_error w a = nth_error w b).
  Proof.
    intro HB. rewrite !nth_error_map. split; [|now intros ->].
    destruct (nth_error w a) as [x|] eqn:Ea, (nth_error w b) as [y|] eqn:Eb; cbn [option_map]; try discriminate; [|reflexivity].
    intro E. injection E as E. f_equal. unfold bytes_ok in HB. rewrite Forall_forall in HB. apply (proj2 RF); [| |exact E]; apply HB; eapply nth_error_In; eassumption.
  Qed.
  Lemma rn_three w a b : bytes_ok w -> (three (map f w) a = three (map f w) b <-> three w a = three w b).
  Proof.
    intro HB. unfold three. rewrite !cut_eq. split; intros H i Hi; specialize (H i Hi); now apply (rn_nth w _ _ HB).
  Qed.
  Lemma rn_candidates w n runs pos : bytes_ok w -> (32768 <= N.of_nat n) -> candidates (map f w) n runs pos = candidates w n runs pos.
  Proof.
    intros HB HN.
    assert (X : forall v, candidates v n runs pos = filter (fun q => negb (hidden runs q) && ((N.of_nat (pos - q) <=? 32768) && (if list_eq_dec N.eq_dec (three v q) (three v pos) then true else false))) (rev (seq 1 (pos - 1)))).
    { intro v. rewrite (candidates_wide v runs pos n (Nat.max n pos)) by lia. unfold candidates. rewrite firstn_all2.
      2: { transitivity (List.length (rev (seq 1 (pos - 1)))); [|rewrite rev_length, seq_length; lia]. generalize (rev (seq 1 (pos - 1))). intro l.
           induction l as [|x l IH]; cbn [filter List.length]; [lia|]. destruct (_ && _); cbn [List.length]; lia. }
      rewrite filter_filter. apply filter_ext. intro q. destruct (list_eq_dec _ _ _) as [E|]; [|now rewrite !andb_false_r].
      rewrite (three_hash _ _ _ E), N.eqb_refl. reflexivity. }
    rewrite !X. apply filter_ext. intro q. do 2 f_equal.
    destruct (list_eq_dec N.eq_dec (three (map f w) q) _) as [E|E], (list_eq_dec N.eq_dec (three w q) _) as [E'|E']; try reflexivity; exfalso; [apply E'|apply E]; now apply (rn_three w q pos HB).
  Qed.
  Lemma rn_longest w pos d n : bytes_ok w -> (longest_match (map f w) pos d n <-> longest_match w pos d n).
  Proof.
    intro HB. unfold longest_match. rewrite map_length.
    assert (A : (forall i, (i < n)%nat -> nth_error (map f w) (pos + i) = nth_error (map f w) (pos + i - d)) <-> (forall i, (i < n)%nat -> nth_error w (pos + i) = nth_error w (pos + i - d))).
    { split; intros H i Hi; specialize (H i Hi); now apply (rn_nth w _ _ HB). }
    rewrite A, (rn_nth w _ _ HB). reflexivity.
  Qed.
  Lemma rn_match w s runs pos r : bytes_ok w -> 32768 <= N.of_nat (nearest s) -> (match_at (map f w) s runs pos r <-> match_at w s runs pos r).
  Proof.
    intros HB HN. unfold match_at. rewrite rn_candidates by assumption. split; intros (refs & F & H); exists refs; (split; [|exact H]);
      (eapply forall2_impl; [|exact F]); cbv beta; intros q r' [E L]; (split; [exact E|]); now apply (rn_longest w _ _ _ HB).
  Qed.
  Lemma rn_byte w pos b : nth_error w pos = Some b -> nth_error (map f w) pos = Some (f b).
  Proof. intro E. now rewrite nth_error_map, E. Qed.

  Lemma rn_choice w c limit runs pos gs : bytes_ok w -> 32768 <= limit ->
    choice_of w c limit runs pos gs -> choice_of (map f w) c limit runs pos (map (rename f) gs).
  Proof.
    intros HB HL. unfold choice_of.
    assert (FI : forall p r, finds (map f w) c limit runs p r <-> finds w c limit runs p r).
    { intros p r. unfold finds. apply rn_match; [exact HB|]. unfold plain_search. cbn [nearest]. lia. }
    assert (FN : forall len p r, finds_next (map f w) c limit runs len p r <-> finds_next w c limit runs len p r).
    { intros len p r. unfold finds_next. split; intros (s & E & H); exists s; (split; [exact E|]); revert H; apply rn_match; try exact HB;
        unfold next_search, plain_search in E; (destruct (wams_lookahead (cfg_wams c)); [destruct (len <? _); [discriminate|]|]); injection E as <-; cbn [nearest]; lia. }
    assert (NM : forall p, no_match (finds w c limit runs p) -> no_match (finds (map f w) c limit runs p)).
    { intros p H r HR. apply FI in HR. exact (H r HR). }
    destruct (cfg_lookahead c).
    - intro H. inversion H; subst; cbn [map rename]; [apply greedy_match; now apply FI|apply greedy_literal; [now apply NM|now apply rn_byte]].
    - intro H. inversion H as [r codes HF HZ|b HN HE]; subst.
      + apply (lazy_match _ _ _ _ r); [now apply FI|]. clear HF H. induction HZ as [p r H|p r r' b codes HF HR HE HZ IH]; cbn [map rename].
        * apply lazy_take. intros r' HR. apply H. now apply FN.
        * eapply lazy_defer; [apply FN; exact HF|exact HR|now apply rn_byte|exact IH].
      + cbn [map rename]. apply lazy_literal; [now apply NM|now apply rn_byte].
    - intro H. inversion H; subst; cbn [map rename].
      + apply three_none; [now apply NM|now apply rn_byte].
      + apply three_long; [now apply FI|assumption].
      + apply three_keep; [now apply FI|assumption| |]; intros x HX; apply FI in HX; auto.
      + eapply three_second; [apply FI; eassumption|assumption|apply FI; eassumption|assumption| |now apply rn_byte]. intros x HX. apply FI in HX. auto.
      + eapply three_third; [apply FI; eassumption|assumption|apply FI; eassumption|assumption| |now apply rn_byte|now apply rn_byte]. intros x HX. apply FI in HX. auto.
  Qed.

  Section Technique.
    Context (config : Config) (preroll data : list N) (limit : N) (HL : 32768 <= limit) (BP : bytes_ok preroll) (BD : bytes_ok data)
      (refs refs' : AllRefs) (EW : with_sixteen preroll data limit = Ok refs) (EW' : with_sixteen (map f preroll) (map f data) limit = Ok refs').
    Let t := mkTechnique config refs.
    Let t' := mkTechnique config refs'.
    Let w := preroll ++ data.

    Lemma rn_w : map f preroll ++ map f data = map f w.
    Proof. unfold w. now rewrite map_app. Qed.
    Lemma rn_hb : bytes_ok w.
    Proof. now apply Forall_app. Qed.
    Lemma rn_codes s : (sc_pos s < List.length w)%nat ->
      exists gs, sc_codes t s = Ok gs /\ sc_codes t' s = Ok (map (rename f) gs) /\ gs <> [] /\ Forall code_ok gs.
    Proof.
      intro HP. destruct (made config _ _ _ _ EW) as (R & _ & _ & ELI & _). destruct (made config _ _ _ _ EW') as (R' & _ & _ & ELI' & _). rewrite rn_w in R'. fold w in R.
      change refs with (t_refs t) in R, ELI. change refs' with (t_refs t') in R', ELI'.
      destruct (guesses w t R rn_hb s HP) as (gs & E & HC & HN). exists gs. split; [exact E|]. split; [|split; [exact HN|]].
      - apply (chosen (map f w) t' R' (rn_bytes _ rn_hb)); [now rewrite map_length|]. rewrite ELI'. rewrite ELI in HC. apply rn_choice; [exact rn_hb|exact HL|exact HC].
      - destruct (guess_ok w t (cfg_lookahead (t_config t)) (sc_obscured s) (sc_pos s) R rn_hb HP) as (gs' & k & EG & _ & _ & _ & HO). fold (sc_codes t s) in EG. rewrite E in EG. injection EG as ->. exact HO.
    Qed.
    Lemma rn_more s : more_data t' s = more_data t s /\ more_data t s = Nat.ltb (sc_pos s) (List.length w).
    Proof.
      destruct (made config _ _ _ _ EW) as (R & _). destruct (made config _ _ _ _ EW') as (R' & _). rewrite rn_w in R'.
      change refs with (t_refs t) in R. change refs' with (t_refs t') in R'.
      rewrite (more_data_spec _ t s R), (more_data_spec _ t' s R'), map_length. split; reflexivity.
    Qed.
    Lemma rn_feedback s c : feedback t' s (rename f c) = feedback t s c.
    Proof. destruct c; reflexivity. Qed.
    Lemma rn_feedbacks cs : forall s, fold_left (feedback t') (map (rename f) cs) s = fold_left (feedback t) cs s.
    Proof. induction cs as [|c cs IH]; intro s; cbn [map fold_left]; [reflexivity|]. now rewrite rn_feedback, IH. Qed.
    Lemma rn_eqb a b : (forall x, a = Literal x -> x < 256) -> (forall x, b = Literal x -> x < 256) -> Code_eqb (rename f a) (rename f b) = Code_eqb a b.
    Proof.
      intros HA HB. destruct a as [x|x], b as [y|y]; cbn [rename Code_eqb]; try reflexivity. specialize (HA x eq_refl). specialize (HB y eq_refl).
      destruct (N.eqb_spec (f x) (f y)) as [E|E], (N.eqb_spec x y) as [E'|E']; try reflexivity; exfalso; [apply E'; now apply (proj2 RF)|apply E; congruence].
    Qed.
    Definition lits (cs : list Code) : Prop := forall b, In (Literal b) cs -> b < 256.
    Lemma lits_ok cs : Forall code_ok cs -> lits cs.
    Proof. intros H b HI. rewrite Forall_forall in H. exact (H _ HI). Qed.
    Lemma rn_shared gs : forall codes, lits gs -> lits codes ->
      shared_prefix (map (rename f) gs) (map (rename f) codes) = (map (rename f) (fst (shared_prefix gs codes)), map (rename f) (snd (shared_prefix gs codes))).
    Proof.
      induction gs as [|g gs IH]; intros [|c codes] HG HC; cbn [map shared_prefix fst snd]; try reflexivity.
      rewrite rn_eqb. 2: intros x ->; apply HC; now left. 2: intros x ->; apply HG; now left.
      destruct (Code_eqb c g); [|reflexivity]. rewrite IH; [|intros b HB; apply HG; now right|intros b HB; apply HC; now right].
      destruct (shared_prefix gs codes) as [m r]; reflexivity.
    Qed.

    Lemma rn_trace_loop : forall fuel s codes, lits codes -> trace_loop fuel t' s (map (rename f) codes) = trace_loop fuel t s codes.
    Proof.
      induction fuel as [|fuel IH]; intros s codes HC; [reflexivity|]. cbn [trace_loop]. destruct (rn_more s) as [-> MD]. destruct (more_data t s) eqn:EM; [|reflexivity].
      symmetry in MD. apply Nat.ltb_lt in MD. destruct (rn_codes s MD) as (gs & -> & -> & HN & HO). cbn [obind]. destruct gs as [|g gs0]; [congruence|]. cbn [map].
      change (rename f g :: map (rename f) gs0) with (map (rename f) (g :: gs0)). set (gs := g :: gs0) in *.
      rewrite rn_shared by (assumption || now apply lits_ok).
      destruct (shared_prefix gs codes) as [m rest] eqn:ES. cbn [fst snd]. destruct (shared_prefix_spec _ _ _ _ ES) as (more & _ & E2 & _).
      assert (HR : lits rest) by (intros b HB; apply HC; rewrite E2; apply in_or_app; now right).
      cbv zeta. rewrite !map_length, rn_feedbacks, map_map. destruct (Nat.eqb _ _); [now rewrite IH|].
      destruct rest as [|c rest]; [reflexivity|]. cbn [map]. rewrite rn_feedback, IH by (intros b HB; apply HR; now right).
      replace (hint_of (rename f c)) with (hint_of c) by (destruct c; reflexivity). reflexivity.
    Qed.

    Lemma rn_guesses gs : forall s tr, restore_guesses t' (map (rename f) gs) s tr
      = match restore_guesses t gs s tr with Ok (l, s', r) => Ok (map (rename f) l, s', r) | Err e => Err e | Panic m => Panic m | Diverge => Diverge end.
    Proof.
      destruct (made config _ _ _ _ EW) as (_ & _ & _ & _ & ED). destruct (made config _ _ _ _ EW') as (_ & _ & _ & _ & ED').
      induction gs as [|g gs IH]; intros s tr; cbn [map restore_guesses]; [reflexivity|]. destruct tr as [|h tr]; [reflexivity|]. destruct h.
      - cbn [obind]. rewrite rn_feedback, IH. destruct (restore_guesses t gs _ tr) as [[[l s'] r]| | |]; reflexivity.
      - unfold byte_at, get_idx. cbn [t_refs t t']. rewrite ED, ED', nth_error_map. destruct (nth_error data (sc_pos s)); [|reflexivity]. cbn [option_map obind].
        change (Literal (f n)) with (rename f (Literal n)). rewrite rn_feedback. reflexivity.
      - cbn [obind]. change (Reference r) with (rename f (Reference r)) at 2. rewrite rn_feedback. reflexivity.
    Qed.
    Lemma rn_restore_loop : forall fuel s tr, restore_loop fuel t' s tr = renamed f (restore_loop fuel t s tr).
    Proof.
      induction fuel as [|fuel IH]; intros s tr; [reflexivity|]. cbn [restore_loop]. destruct (rn_more s) as [-> MD]. destruct (more_data t s) eqn:EM; [|reflexivity].
      symmetry in MD. apply Nat.ltb_lt in MD. destruct (rn_codes s MD) as (gs & -> & -> & HN & HO). cbn [obind]. destruct gs as [|g gs0] eqn:EG; [congruence|].
      cbn [map]. change (rename f g :: map (rename f) gs0) with (map (rename f) (g :: gs0)). rewrite rn_guesses.
      destruct (restore_guesses t (g :: gs0) s tr) as [[[l s'] r]| | |]; try reflexivity. cbn [obind]. rewrite IH. destruct (restore_loop fuel t s' r); try reflexivity.
      cbn [obind renamed]. now rewrite map_app.
    Qed.
    Lemma rn_scanner : scanner t' = scanner t /\ sc_data_len t' = sc_data_len t.
    Proof.
      destruct (made config _ _ _ _ EW) as (_ & EP & EL & _). destruct (made config _ _ _ _ EW') as (_ & EP' & EL' & _). fold t in EP, EL. fold t' in EP', EL'. split.
      - unfold scanner in *. cbn [sc_pos] in EP, EP'. f_equal. rewrite EP, EP', map_length. reflexivity.
      - rewrite EL, EL', !app_length, !map_length. reflexivity.
    Qed.
    Lemma rn_trace codes : lits codes -> trace (map (rename f) codes) t' = trace codes t.
    Proof. intro HC. unfold trace. destruct rn_scanner as [-> ->]. now apply rn_trace_loop. Qed.
    Lemma rn_restore hints : restore hints t' = renamed f (restore hints t).
    Proof. unfold restore. destruct rn_scanner as [-> ->]. apply rn_restore_loop. Qed.
  End Technique.
End Rename.

(** ** Properties *)
Lemma C102_lemma_guess : forall f config preroll data limit refs refs' history guess,
  renaming f -> bytes_ok preroll -> bytes_ok data -> 32768 <= limit ->
  with_sixteen preroll data limit = Ok refs -> with_sixteen (map f preroll) (map f data) limit = Ok refs' ->
  (List.length preroll + codes_len history < List.length (preroll ++ data))%nat ->
  sc_codes (mkTechnique config refs) (fold_left (feedback (mkTechnique config refs)) history (scanner (mkTechnique config refs))) = Ok guess ->
  sc_codes (mkTechnique config refs') (fold_left (feedback (mkTechnique config refs')) (map (rename f) history) (scanner (mkTechnique config refs')))
  = Ok (map (rename f) guess).
Proof.
  intros f config preroll data limit refs refs' history guess RF BP BD HL EW EW' HP E. rewrite (rn_feedbacks f config refs refs').
  rewrite (proj1 (rn_scanner f config preroll data limit refs refs' EW EW')). destruct (made config _ _ _ _ EW) as (_ & EP & _).
  destruct (rn_codes f RF config preroll data limit HL BP BD refs refs' EW EW' (fold_left (feedback (mkTechnique config refs)) history (scanner (mkTechnique config refs)))) as (gs & E1 & E2 & _).
  - rewrite feedback_fold_pos, EP, emitted_codes_len. exact HP.
  - rewrite E in E1. injection E1 as ->. exact E2.
Qed.

Lemma C102_lemma_trace : forall f config preroll data limit refs refs' codes,
  renaming f -> bytes_ok preroll -> bytes_ok data -> 32768 <= limit ->
  with_sixteen preroll data limit = Ok refs -> with_sixteen (map f preroll) (map f data) limit = Ok refs' ->
  (forall b, In (Literal b) codes -> b < 256) ->
  trace (map (rename f) codes) (mkTechnique config refs') = trace codes (mkTechnique config refs).
Proof. intros f config preroll data limit refs refs' codes RF BP BD HL EW EW' HC. exact (rn_trace f RF config preroll data limit HL BP BD refs refs' EW EW' codes HC). Qed.

Lemma C102_lemma_restore : forall f config preroll data limit refs refs' hints,
  renaming f -> bytes_ok preroll -> bytes_ok data -> 32768 <= limit ->
  with_sixteen preroll data limit = Ok refs -> with_sixteen (map f preroll) (map f data) limit = Ok refs' ->
  restore hints (mkTechnique config refs') = renamed f (restore hints (mkTechnique config refs)).
Proof. intros f config preroll data limit refs refs' hints RF BP BD HL EW EW'. exact (rn_restore f RF config preroll data limit HL BP BD refs refs' EW EW' hints). Qed.

Lemma guesses_lits t gs : bytes_ok (ar_data (t_refs t)) -> forall s tr l s' r, lits gs -> restore_guesses t gs s tr = Ok (l, s', r) -> lits l.
Proof.
  intro BD. induction gs as [|g gs IH]; intros s tr l s' r HG E; cbn [restore_guesses] in E; [injection E as <- <- <-; intros b []|].
  destruct tr as [|h tr]; [discriminate|]. apply obind_ok in E. destruct E as (o & EO & E). destruct h.
  - injection EO as <-. apply obind_ok in E. destruct E as ([[l0 s0] r0] & E0 & E). injection E as <- <- <-.
    intros b [X|X]; [subst; apply HG; now left|]. revert b X. eapply IH; [|exact E0]. intros b X. apply HG. now right.
  - injection E as <- <- <-. apply obind_ok in EO. destruct EO as (x & EB & EO). injection EO as <-. intros b [X|[]]. injection X as <-.
    unfold byte_at, get_idx in EB. destruct (nth_error _ _) eqn:EN; [|discriminate]. injection EB as <-. unfold bytes_ok in BD. rewrite Forall_forall in BD. apply BD. eapply nth_error_In, EN.
  - injection E as <- <- <-. injection EO as <-. intros b [X|[]]. discriminate.
Qed.
Lemma restore_lits w t : refs_of w (t_refs t) -> bytes_ok w -> bytes_ok (ar_data (t_refs t)) ->
  forall fuel s tr codes, restore_loop fuel t s tr = Ok codes -> lits codes.
Proof.
  intros R HB BD. induction fuel as [|fuel IH]; intros s tr codes E; [discriminate|]. cbn [restore_loop] in E. rewrite (more_data_spec w t s R) in E.
  destruct (Nat.ltb_spec (sc_pos s) (List.length w)) as [HP|HP]; [|injection E as <-; intros b []].
  destruct (guess_ok w t (cfg_lookahead (t_config t)) (sc_obscured s) (sc_pos s) R HB HP) as (gs & k & EG & HN & _ & _ & HO). fold (sc_codes t s) in EG. rewrite EG in E. cbn [obind] in E.
  destruct gs as [|g gs0]; [congruence|]. apply obind_ok in E. destruct E as ([[l s'] r] & E1 & E). apply obind_ok in E. destruct E as (more & E2 & E). injection E as <-.
  intros b X. apply in_app_or in X. destruct X as [X|X]; [|exact (IH _ _ _ E2 b X)]. exact (guesses_lits t _ BD _ _ _ _ _ (lits_ok _ HO) E1 b X).
Qed.
Lemma rn_slice f (RF : renaming f) a : forall b, lits a -> lits b -> slice_eqb Code_eqb (map (rename f) a) (map (rename f) b) = slice_eqb Code_eqb a b.
Proof.
  induction a as [|x a IH]; intros [|y b] HA HB; try reflexivity. unfold lits in *. cbn [map slice_eqb]. rewrite (rn_eqb f RF), IH; [reflexivity| | | |]; intros; subst; firstorder.
Qed.

Lemma C102_lemma_levels : forall f level preroll data codes,
  renaming f -> bytes_ok preroll -> bytes_ok data -> 4 <= level -> (forall b, In (Literal b) codes -> b < 256) ->
  try_gzip level (map f preroll) (map f data) (map (rename f) codes) = try_gzip level preroll data codes.
Proof.
  intros f level preroll data codes RF BP BD HL HC. unfold try_gzip. destruct (Config_gzip level) as [config| | |] eqn:EC; try reflexivity. cbn [obind].
  unfold tracer_try. assert (HI : insert_only_below_length (cfg_wams config) = None).
  { unfold Config_gzip in EC. destruct ((1 <=? level) && (level <=? 9)) eqn:X; [|discriminate].
    assert (level = 4 \/ level = 5 \/ level = 6 \/ level = 7 \/ level = 8 \/ level = 9) as D by lia.
    decompose [or] D; subst level; vm_compute in EC; injection EC as <-; reflexivity. }
  rewrite HI. destruct (with_sixteen_ok preroll data 65535) as (refs & EW & _). destruct (with_sixteen_ok (map f preroll) (map f data) 65535) as (refs' & EW' & _).
  rewrite EW, EW'. cbn [obind]. unfold validate.
  rewrite (C102_lemma_trace f config preroll data 65535 refs refs' codes RF BP BD ltac:(lia) EW EW' HC).
  destruct (trace codes (mkTechnique config refs)) as [hints| | |]; try reflexivity. cbn [obind].
  rewrite (C102_lemma_restore f config preroll data 65535 refs refs' hints RF BP BD ltac:(lia) EW EW').
  destruct (restore hints (mkTechnique config refs)) as [back| | |] eqn:ER; try reflexivity. cbn [obind renamed].
  rewrite (rn_slice f RF); [reflexivity|exact HC|]. destruct (made config _ _ _ _ EW) as (R & _ & _ & _ & ED).
  eapply (restore_lits (preroll ++ data) (mkTechnique config refs) R); [now apply Forall_app|cbn [t_refs]; now rewrite ED|exact ER].
Qed.

Definition swapped (x : N) : N :=
  if (x mod 32 =? 1) && (1 <? x) then x + 1 else if (x mod 32 =? 2) && (2 <? x) then x - 1 else x.
Lemma swapped_renaming : renaming swapped.
Proof.
  unfold swapped. split.
  - intros a Ha. destruct (N.eqb_spec (a mod 32) 1), (N.ltb_spec 1 a), (N.eqb_spec (a mod 32) 2), (N.ltb_spec 2 a); cbn [andb]; lia.
  - intros a b Ha Hb. destruct (N.eqb_spec (a mod 32) 1), (N.ltb_spec 1 a), (N.eqb_spec (a mod 32) 2), (N.ltb_spec 2 a),
      (N.eqb_spec (b mod 32) 1), (N.ltb_spec 1 b), (N.eqb_spec (b mod 32) 2), (N.ltb_spec 2 b); cbn [andb]; lia.
Qed.

Lemma C102_lemma_low : forall level, 1 <= level <= 3 -> exists f data codes hints hints',
  renaming f /\ bytes_ok data /\ Forall code_ok codes /\ encodes [] data codes
  /\ try_gzip level [] data codes = Ok hints /\ try_gzip level [] (map f data) (map (rename f) codes) = Ok hints' /\ hints <> hints'.
Proof.
  intros level HL. exists swapped, [0; 1; 2; 3; 33; 2; 3; 65; 2; 3; 97; 2; 3; 129; 2; 3; 161; 2; 3; 193; 2; 3; 225; 2; 3; 1; 2; 3].
  exists (map Literal [0; 1; 2; 3; 33; 2; 3; 65; 2; 3; 97; 2; 3; 129; 2; 3; 161; 2; 3; 193; 2; 3; 225; 2; 3] ++ [Reference (mkRef 24 0)]).
  exists (repeat Correct 25 ++ [Actually (mkRef 24 0)]), (repeat Correct 26). split; [apply swapped_renaming|].
  split; [repeat (apply Forall_cons; [reflexivity|]); apply Forall_nil|]. split; [|split; [vm_compute; reflexivity|]].
  - apply Forall_app. split; [apply Forall_map; repeat (apply Forall_cons; [reflexivity|]); apply Forall_nil|].
    apply Forall_cons; [|apply Forall_nil]. vm_compute. repeat split; discriminate.
  - assert (level = 1 \/ level = 2 \/ level = 3) as D by lia. decompose [or] D; subst level; (split; [vm_compute; reflexivity|]); (split; [vm_compute; reflexivity|]); discriminate.
Qed.
