(** Lemmas: tracing and restoring. *)
From Verif Require Import Base M_bit M_lib M_all_refs M_technique M_trace Spec Clients L_bits L_ring L_search L_P_search L_tech.
From Coq Require Import ZArith ZifyBool ZifyNat ZifyN.
Ltac Zify.zify_post_hook ::= Z.div_mod_to_equations.
Local Open Scope N_scope.
Local Open Scope model_scope.

(** ** Equality tests *)
Lemma Ref_eqb_spec a b : Ref_eqb a b = true <-> a = b.
Proof.
  destruct a as [d r], b as [d' r']. unfold Ref_eqb. cbn [r_dist r_run_minus_3]. rewrite Bool.andb_true_iff, !N.eqb_eq.
  split; [intros [-> ->]; reflexivity|intros [= -> ->]; auto].
Qed.
Lemma Code_eqb_spec a b : Code_eqb a b = true <-> a = b.
Proof.
  destruct a, b; cbn [Code_eqb]; try (split; congruence).
  - rewrite N.eqb_eq. split; [now intros ->|now intros [= ->]].
  - rewrite Ref_eqb_spec. split; [now intros ->|now intros [= ->]].
Qed.
Lemma Trace_eqb_spec a b : Trace_eqb a b = true <-> a = b.
Proof.
  destruct a, b; cbn [Trace_eqb]; try (split; congruence).
  rewrite Ref_eqb_spec. split; [now intros ->|now intros [= ->]].
Qed.
Lemma slice_eqb_refl {A} (eqb : A -> A -> bool) l : (forall a, eqb a a = true) -> slice_eqb eqb l l = true.
Proof. intro H. induction l as [|x l IH]; cbn [slice_eqb]; [reflexivity|]. now rewrite H, IH. Qed.
Lemma slice_eqb_true {A} (eqb : A -> A -> bool) : (forall a b, eqb a b = true -> a = b) -> forall l l', slice_eqb eqb l l' = true -> l = l'.
Proof.
  intros H l. induction l as [|x l IH]; intros [|y l'] E; cbn [slice_eqb] in E; try discriminate; [reflexivity|].
  apply Bool.andb_true_iff in E. destruct E as [E1 E2]. f_equal; auto.
Qed.

(** ** Shared prefixes *)
Lemma shared_prefix_spec l : forall r m rest, shared_prefix l r = (m, rest) ->
  exists more, l = m ++ more /\ r = m ++ rest
    /\ match more, rest with x :: _, y :: _ => x <> y | _, _ => True end.
Proof.
  induction l as [|x l IH]; intros r m rest E; cbn [shared_prefix] in E.
  - injection E as <- <-. exists []. auto.
  - destruct r as [|y r].
    + injection E as <- <-. exists (x :: l). auto.
    + destruct (Code_eqb y x) eqn:EQ.
      * apply Code_eqb_spec in EQ. subst y. destruct (shared_prefix l r) as [m' rest'] eqn:ES. injection E as <- <-.
        destruct (IH _ _ _ ES) as (more & -> & -> & H). exists more. auto.
      * injection E as <- <-. exists (x :: l). split; [reflexivity|]. split; [reflexivity|]. intros ->.
        assert (X : Code_eqb y y = true) by now apply Code_eqb_spec. congruence.
Qed.

(** ** Positions *)
Fixpoint emitted (cs : list Code) : nat := match cs with [] => 0%nat | c :: cs' => (N.to_nat (emitted_bytes c) + emitted cs')%nat end.

Lemma emitted_app a b : emitted (a ++ b) = (emitted a + emitted b)%nat.
Proof. induction a as [|x a IH]; cbn [app emitted]; [reflexivity|]. lia. Qed.
Lemma emitted_pos c cs : (1 <= emitted (c :: cs))%nat.
Proof. cbn [emitted]. destruct c; cbn [emitted_bytes]; unfold r_run; lia. Qed.
Lemma emitted_count cs : (List.length cs <= emitted cs)%nat.
Proof.
  induction cs as [|c cs IH]; [cbn; lia|]. cbn [emitted List.length]. destruct c; cbn [emitted_bytes]; unfold r_run; lia.
Qed.

Lemma lz_decode_length cap cs : forall h res, lz_decode cap h cs = Some res -> List.length res = (List.length h + emitted cs)%nat.
Proof.
  induction cs as [|[y|r] cs IH]; intros h res E; cbn [lz_decode emitted emitted_bytes] in *.
  - injection E as <-. lia.
  - apply IH in E. rewrite app_length in E. cbn [List.length] in E. lia.
  - destruct (_ && _); [|discriminate]. apply IH in E. rewrite lz_copy_new, app_length, lz_new_length in E. unfold ref_len, r_run in *. lia.
Qed.

Lemma feedback_pos t s c : sc_pos (feedback t s c) = (sc_pos s + N.to_nat (emitted_bytes c))%nat.
Proof.
  unfold feedback. cbn zeta. destruct (insert_only_below_length _); [|reflexivity]. destruct c; [reflexivity|]. destruct (_ <=? _); reflexivity.
Qed.
Lemma feedback_fold_pos t cs : forall s, sc_pos (fold_left (feedback t) cs s) = (sc_pos s + emitted cs)%nat.
Proof.
  induction cs as [|c cs IH]; intro s; cbn [fold_left emitted]; [lia|]. rewrite IH, feedback_pos. lia.
Qed.

(** [codes] decode the rest of [w] from [pos] on. *)
Definition finishes (w : list N) (pos : nat) (codes : list Code) : Prop :=
  (pos <= List.length w)%nat /\ lz_decode 32768 (firstn pos w) codes = Some w.

Lemma finishes_app w pos a b : finishes w pos (a ++ b) -> decodes w pos a (emitted a) /\ finishes w (pos + emitted a) b.
Proof.
  intros [Hp E]. rewrite lz_decode_app in E. destruct (lz_decode 32768 (firstn pos w) a) as [h|] eqn:EA; [|discriminate].
  assert (L := lz_decode_length _ _ _ _ EA). rewrite firstn_length, Nat.min_l in L by lia.
  destruct (lz_decode_grows _ _ _ _ E) as (d & ED).
  assert (EH : h = firstn (pos + emitted a) w).
  { rewrite ED, <- L, firstn_app, firstn_all, Nat.sub_diag, firstn_O, app_nil_r. reflexivity. }
  assert (HL : (pos + emitted a <= List.length w)%nat) by (rewrite ED, app_length; lia).
  split; [split; [assumption|now rewrite EA, EH]|]. split; [assumption|]. now rewrite <- EH.
Qed.
Lemma finishes_emitted w pos cs : finishes w pos cs -> (pos + emitted cs = List.length w)%nat.
Proof. intros [Hp E]. apply lz_decode_length in E. rewrite firstn_length in E. lia. Qed.
Lemma decodes_emitted w pos cs k : (pos <= List.length w)%nat -> decodes w pos cs k -> k = emitted cs.
Proof. intros Hp [H1 E]. apply lz_decode_length in E. rewrite !firstn_length in E. lia. Qed.

Lemma finishes_lit w pos b cs : finishes w pos (Literal b :: cs) -> nth_error w pos = Some b.
Proof.
  intros [Hp E]. cbn [lz_decode] in E. destruct (lz_decode_grows _ _ _ _ E) as (d & ED).
  assert (L : List.length (firstn pos w) = pos) by (rewrite firstn_length; lia).
  rewrite <- app_assoc in ED. rewrite ED at 1. rewrite nth_error_app2 by lia. rewrite L, Nat.sub_diag. reflexivity.
Qed.

Lemma more_data_spec w t s : refs_of w (t_refs t) -> more_data t s = Nat.ltb (sc_pos s) (List.length w).
Proof. intro R. unfold more_data, sc_data_len. now rewrite (ar_len w). Qed.

(** ** Restoring the guesses of one round *)
Lemma restore_matched t m : forall more s tr,
  restore_guesses t (m ++ more) s (map (fun _ => Correct) m ++ tr) =
  obind (restore_guesses t more (fold_left (feedback t) m s) tr) (fun r => let '(l, s'', tr'') := r in Ok (m ++ l, s'', tr'')).
Proof.
  induction m as [|c m IH]; intros more s tr; cbn [app map fold_left].
  - destruct (restore_guesses t more s tr) as [[[l s''] tr'']| | |]; reflexivity.
  - cbn [restore_guesses obind]. rewrite IH. destruct (restore_guesses t more _ tr) as [[[l s''] tr'']| | |]; reflexivity.
Qed.

(** ** Tracing and restoring in step *)
Definition literals_at_data (t : Technique) (tr : list Trace) : Prop := ar_preroll (t_refs t) = [] \/ ~ In ActuallyLiteral tr.

Lemma trace_ok w t : refs_of w (t_refs t) -> bytes_ok w ->
  forall fuel s codes, finishes w (sc_pos s) codes -> (List.length w - sc_pos s < fuel)%nat ->
  exists tr, trace_loop fuel t s codes = Ok tr /\ List.length tr = List.length codes
    /\ (forall r, In (Actually r) tr -> In (Reference r) codes)
    /\ ((forall h, In h tr -> h = Correct) <-> generates t s codes)
    /\ (literals_at_data t tr -> restore_loop fuel t s tr = Ok codes).
Proof.
  intros R HB fuel. induction fuel as [|fuel IH]; intros s codes HF HL; [lia|]. cbn [trace_loop restore_loop].
  assert (MD := more_data_spec w t s R). destruct (more_data t s) eqn:EM; symmetry in MD.
  2: { apply Nat.ltb_ge in MD. assert (EMI := finishes_emitted _ _ _ HF). destruct codes as [|c codes]; [|assert (X := emitted_pos c codes); lia].
       exists []. split; [reflexivity|]. split; [reflexivity|]. split; [intros r []|]. split; [|reflexivity]. split; [intros _; now constructor|intros _ h []]. }
  apply Nat.ltb_lt in MD. destruct (guess_ok w t (cfg_lookahead (t_config t)) (sc_obscured s) (sc_pos s) R HB MD) as (gs & k & EG & HN & HK & HD & _).
  fold (sc_codes t s) in EG. rewrite EG. cbn [obind]. destruct gs as [|g gs0] eqn:EGS; [congruence|]. rewrite <- EGS in *. clear HN.
  destruct (shared_prefix gs codes) as [m rest] eqn:ES. destruct (shared_prefix_spec _ _ _ _ ES) as (more & E1 & E2 & HX).
  rewrite E2 in HF. destruct (finishes_app _ _ _ _ HF) as [HM HR].
  assert (PM := feedback_fold_pos t m s).
  destruct more as [|x more].
  - rewrite app_nil_r in E1. subst m. rewrite Nat.eqb_refl.
    assert (P1 : (1 <= emitted gs)%nat) by (rewrite EGS; apply emitted_pos).
    destruct (IH (fold_left (feedback t) gs s) rest) as (tr & E & L & HI & HC & HR'); [now rewrite PM|rewrite PM; lia|].
    rewrite E. cbn [obind]. exists (map (fun _ => Correct) gs ++ tr). split; [reflexivity|].
    split; [rewrite app_length, map_length, L, E2, app_length; lia|].
    split. { intros r HIn. apply in_app_or in HIn. destruct HIn as [HIn|HIn]; [apply in_map_iff in HIn; destruct HIn as (? & ? & ?); discriminate|]. rewrite E2. apply in_or_app. right. now apply HI. }
    split.
    + split.
      * intro H. rewrite E2. apply generates_step; [assumption|assumption|]. apply HC. intros h Hh. apply H. apply in_or_app. now right.
      * intro G. intros h Hh. apply in_app_or in Hh. destruct Hh as [Hh|Hh]; [apply in_map_iff in Hh; destruct Hh as (? & <- & _); reflexivity|].
        inversion G as [? X|? gs' cs' X1 X2 X3 X4 X5]; [congruence|]. rewrite EG in X2. injection X2 as <-. rewrite E2 in X5. apply app_inv_head in X5. subst cs'.
        revert h Hh. now apply HC.
    + intro HLit. assert (RG := restore_matched t gs [] s tr). rewrite app_nil_r in RG. cbn [restore_guesses obind] in RG. rewrite app_nil_r in RG.
      rewrite RG. cbn [obind]. rewrite HR'; [cbn [obind]; now rewrite E2|].
      destruct HLit as [HLit|HLit]; [now left|right]. intro X. apply HLit. apply in_or_app. now right.
  - assert (LN : Nat.eqb (List.length m) (List.length gs) = false) by (rewrite E1, app_length; cbn [List.length]; apply Nat.eqb_neq; lia).
    rewrite LN.
    (* what is left of the codes cannot be empty *)
    destruct rest as [|code rest].
    { exfalso. rewrite E1 in HD. assert (X := decodes_emitted _ _ _ _ (Nat.lt_le_incl _ _ MD) HD). rewrite emitted_app in X. assert (Y := finishes_emitted _ _ _ HR). cbn [emitted] in Y.
      assert (Z := emitted_pos x more). destruct HD as [HD _]. lia. }
    assert (HR2 := HR). change (code :: rest) with ([code] ++ rest) in HR2. apply finishes_app in HR2. destruct HR2 as [_ HR2].
    assert (P1 := emitted_pos code []).
    assert (PF : sc_pos (feedback t (fold_left (feedback t) m s) code) = (sc_pos s + emitted m + emitted [code])%nat).
    { rewrite feedback_pos, PM. cbn [emitted]. lia. }
    destruct (IH (feedback t (fold_left (feedback t) m s) code) rest) as (tr & E & L & HI & HC & HR'); [now rewrite PF|rewrite PF; lia|].
    rewrite E. cbn [obind]. exists (map (fun _ => Correct) m ++ hint_of code :: tr). split; [reflexivity|].
    split; [rewrite app_length, map_length, E2, app_length; cbn [List.length]; lia|].
    split.
    { intros r HIn. apply in_app_or in HIn. destruct HIn as [HIn|HIn]; [apply in_map_iff in HIn; destruct HIn as (? & ? & ?); discriminate|].
      rewrite E2. apply in_or_app. right. destruct HIn as [HIn|HIn]; [|right; now apply HI]. left. destruct code; [discriminate|]. cbn [hint_of] in HIn. congruence. }
    split.
    + split.
      * intro H. exfalso. specialize (H (hint_of code)). destruct code; discriminate H; apply in_or_app; right; now left.
      * intro G. exfalso. inversion G as [? X|? gs' cs' X1 X2 X3 X4 X5]; [congruence|]. rewrite EG in X2. injection X2 as <-.
        rewrite E2, E1, <- app_assoc in X5. apply app_inv_head in X5. cbn [app] in X5. congruence.
    + intro HLit. assert (RG := restore_matched t m (x :: more) s (hint_of code :: tr)). rewrite <- E1 in RG.
      rewrite RG. clear RG.
      assert (RS : restore_loop fuel t (feedback t (fold_left (feedback t) m s) code) tr = Ok rest).
      { apply HR'. destruct HLit as [HLit|HLit]; [now left|right]. intro X. apply HLit. apply in_or_app. right. now right. }
      cbn [restore_guesses]. destruct code as [b|r]; cbn [hint_of].
      * assert (BA : byte_at t (sc_pos (fold_left (feedback t) m s)) = Ok b).
        { rewrite PM. apply finishes_lit in HR. unfold byte_at, get_idx. destruct HLit as [HLit|HLit].
          - destruct R as (RW & _). rewrite HLit in RW. cbn [app] in RW. rewrite RW, HR. reflexivity.
          - exfalso. apply HLit. apply in_or_app. right. now left. }
        rewrite BA. cbn [obind]. rewrite RS. cbn [obind]. rewrite E2, <- app_assoc. reflexivity.
      * cbn [obind]. rewrite RS. cbn [obind]. rewrite E2, <- app_assoc. reflexivity.
Qed.

(** ** Following the guesses *)
Lemma generates_exists w t : refs_of w (t_refs t) -> bytes_ok w -> forall n s, (List.length w - sc_pos s < n)%nat -> (sc_pos s <= List.length w)%nat ->
  exists codes, generates t s codes /\ finishes w (sc_pos s) codes /\ Forall code_ok codes.
Proof.
  intros R HB n. induction n as [|n IH]; intros s HL HP; [lia|]. assert (MD := more_data_spec w t s R).
  destruct (Nat.ltb_spec (sc_pos s) (List.length w)) as [HP'|].
  - destruct (guess_ok w t (cfg_lookahead (t_config t)) (sc_obscured s) (sc_pos s) R HB HP') as (gs & k & EG & HN & HK & HD & HO). fold (sc_codes t s) in EG.
    assert (EK := decodes_emitted _ _ _ _ HP HD). subst k.
    destruct (IH (fold_left (feedback t) gs s)) as (cs & HG & HF & HO'); [rewrite feedback_fold_pos; lia|rewrite feedback_fold_pos; apply HD|].
    exists (gs ++ cs). split; [now apply generates_step|]. split; [|now apply Forall_app]. split; [assumption|]. rewrite lz_decode_app. rewrite (proj2 HD). rewrite feedback_fold_pos in HF. apply HF.
  - exists []. split; [now apply generates_end|]. split; [|constructor]. split; [assumption|]. cbn [lz_decode]. rewrite firstn_all2 by assumption. reflexivity.
Qed.

Lemma restore_corrects w t : refs_of w (t_refs t) -> bytes_ok w ->
  forall fuel s codes n, generates t s codes -> (sc_pos s <= List.length w)%nat -> (List.length w - sc_pos s < fuel)%nat ->
  restore_loop fuel t s (repeat Correct n) = if (List.length codes <=? n)%nat then Ok codes else Panic "not out of data".
Proof.
  intros R HB fuel. induction fuel as [|fuel IH]; intros s codes n HG HP HL; [lia|]. cbn [restore_loop].
  assert (MD := more_data_spec w t s R). inversion HG as [? X|? gs cs X1 X2 X3]; subst.
  - rewrite X. reflexivity.
  - rewrite X1 in *. symmetry in MD. apply Nat.ltb_lt in MD. rewrite X2. cbn [obind].
    destruct (guess_ok w t (cfg_lookahead (t_config t)) (sc_obscured s) (sc_pos s) R HB MD) as (gs' & k & EG & HN & HK & HD & _). fold (sc_codes t s) in EG.
    rewrite X2 in EG. injection EG as <-. assert (EK := decodes_emitted _ _ _ _ HP HD). subst k.
    destruct gs as [|g gs0] eqn:EGS; [congruence|]. rewrite <- EGS in *. clear HN.
    assert (RC : restore_guesses t gs s (repeat Correct n) = if (List.length gs <=? n)%nat then Ok (gs, fold_left (feedback t) gs s, repeat Correct (n - List.length gs)) else Panic "not out of data").
    { clear. revert s n. induction gs as [|g gs IHg]; intros s n; cbn [restore_guesses List.length fold_left].
      - now rewrite Nat.sub_0_r.
      - destruct n as [|n]; cbn [repeat]; [reflexivity|]. cbn [obind]. rewrite IHg. cbn [Nat.leb Nat.sub]. destruct (List.length gs <=? n)%nat; reflexivity. }
    rewrite RC, app_length. destruct (Nat.leb_spec (List.length gs) n).
    + cbn [obind]. rewrite (IH _ cs) by (first [assumption|rewrite feedback_fold_pos; first [apply HD|lia]]).
      destruct (Nat.leb_spec (List.length cs) (n - List.length gs)); destruct (Nat.leb_spec (List.length gs + List.length cs) n); try lia; reflexivity.
    + cbn [obind]. destruct (Nat.leb_spec (List.length gs + List.length cs) n); [lia|reflexivity].
Qed.
