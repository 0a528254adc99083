(** Lemmas: what restoring a trace gives, exactly. *)
From Verif Require Import Base M_bit M_lib M_circles M_parse M_serialise M_all_refs M_technique M_trace Spec Clients Clients_restore
  L_bits L_ring L_parse L_P_circ L_P_parse L_search L_P_search L_tech L_P_tech L_trace L_strace L_P_trace L_P_e2e L_P_encoder L_P_exact L_level.
From Coq Require Import ZArith ZifyBool ZifyNat ZifyN.
Ltac Zify.zify_post_hook ::= Z.div_mod_to_equations.
Local Open Scope N_scope.
Local Open Scope model_scope.

Lemma code_bytes_emitted c : code_bytes c = N.to_nat (emitted_bytes c).
Proof. destruct c; reflexivity. Qed.
Lemma codes_bytes_emitted cs : codes_bytes cs = emitted cs.
Proof. induction cs as [|c cs IH]; [reflexivity|]. unfold codes_bytes in *. cbn [map fold_right emitted]. rewrite IH, code_bytes_emitted. reflexivity. Qed.

Definition opt_result {A} (o : option A) : outcome A := match o with Some a => Ok a | None => Panic "index out of bounds" end.

Lemma looked_up_corrects data m : forall pos tr rest, looked_up data pos (map (fun _ : Code => Correct) m ++ tr) (m ++ rest)
  = option_map (fun l => m ++ l) (looked_up data (pos + emitted m) tr rest).
Proof.
  induction m as [|c m IH]; intros pos tr rest; cbn [map app looked_up emitted].
  - rewrite Nat.add_0_r. destruct (looked_up data pos tr rest); reflexivity.
  - rewrite IH, code_bytes_emitted, <- Nat.add_assoc. destruct (looked_up data _ tr rest); reflexivity.
Qed.

Lemma feedback_literal t s a b : feedback t s (Literal a) = feedback t s (Literal b).
Proof. reflexivity. Qed.

Lemma restore_exact w t : refs_of w (t_refs t) -> bytes_ok w ->
  forall fuel s codes tr, finishes w (sc_pos s) codes -> (List.length w - sc_pos s < fuel)%nat ->
  trace_loop fuel t s codes = Ok tr ->
  restore_loop fuel t s tr = opt_result (looked_up (ar_data (t_refs t)) (sc_pos s) tr codes).
Proof.
  intros R HB fuel. induction fuel as [|fuel IH]; intros s codes tr HF HL HT; [lia|]. cbn [trace_loop restore_loop] in *.
  assert (MD := more_data_spec w t s R). destruct (more_data t s) eqn:EM; symmetry in MD.
  2: { injection HT as <-. reflexivity. }
  apply Nat.ltb_lt in MD. destruct (guess_ok w t (cfg_lookahead (t_config t)) (sc_obscured s) (sc_pos s) R HB MD) as (gs & k & EG & HN & HK & HD & _).
  fold (sc_codes t s) in EG. rewrite EG in *. cbn [obind] in *. destruct gs as [|g gs0] eqn:EGS; [congruence|]. rewrite <- EGS in *. clear HN.
  destruct (shared_prefix gs codes) as [m rest] eqn:ES. destruct (shared_prefix_spec _ _ _ _ ES) as (more & E1 & E2 & HX).
  rewrite E2 in HF. destruct (finishes_app _ _ _ _ HF) as [HM HR].
  assert (PM := feedback_fold_pos t m s).
  destruct more as [|x more].
  - rewrite app_nil_r in E1. subst m. rewrite Nat.eqb_refl in HT.
    assert (P1 : (1 <= emitted gs)%nat) by (rewrite EGS; apply emitted_pos).
    apply obind_ok in HT. destruct HT as (tr' & ET & HT). injection HT as <-.
    assert (RS := IH (fold_left (feedback t) gs s) rest tr' ltac:(now rewrite PM) ltac:(rewrite PM; lia) ET). rewrite PM in RS.
    assert (RG := restore_matched t gs [] s tr'). rewrite app_nil_r in RG. cbn [restore_guesses obind] in RG. rewrite app_nil_r in RG.
    rewrite RG. cbn [obind]. rewrite RS, E2, looked_up_corrects. destruct (looked_up _ _ tr' rest); reflexivity.
  - assert (LN : Nat.eqb (List.length m) (List.length gs) = false) by (rewrite E1, app_length; cbn [List.length]; apply Nat.eqb_neq; lia).
    rewrite LN in HT. destruct rest as [|code rest]; [discriminate|].
    apply obind_ok in HT. destruct HT as (tr' & ET & HT). injection HT as <-.
    assert (HR2 := HR). change (code :: rest) with ([code] ++ rest) in HR2. apply finishes_app in HR2. destruct HR2 as [_ HR2].
    assert (P1 := emitted_pos code []).
    assert (PF : sc_pos (feedback t (fold_left (feedback t) m s) code) = (sc_pos s + emitted m + emitted [code])%nat).
    { rewrite feedback_pos, PM. cbn [emitted]. lia. }
    assert (RS := IH (feedback t (fold_left (feedback t) m s) code) rest tr' ltac:(now rewrite PF) ltac:(rewrite PF; lia) ET). rewrite PF in RS.
    assert (RG := restore_matched t m (x :: more) s (hint_of code :: tr')). rewrite <- E1 in RG. rewrite RG. clear RG.
    rewrite E2, looked_up_corrects. cbn [restore_guesses]. cbn [emitted] in RS. rewrite Nat.add_0_r, <- code_bytes_emitted in RS.
    destruct code as [b|r]; cbn [hint_of looked_up].
    + rewrite PM. unfold byte_at, get_idx. destruct (nth_error (ar_data (t_refs t)) (sc_pos s + emitted m)) as [b'|]; [|reflexivity].
      cbn [obind]. rewrite (feedback_literal t _ b' b), RS. destruct (looked_up _ _ tr' rest); [|reflexivity]. cbn [opt_result obind option_map].
      rewrite <- app_assoc. reflexivity.
    + cbn [obind]. rewrite RS. destruct (looked_up _ _ tr' rest); [|reflexivity]. cbn [opt_result obind option_map].
      rewrite <- app_assoc. reflexivity.
Qed.

Lemma looked_up_same data pos hints : forall codes p, List.length hints = List.length codes ->
  (forall i c, nth_error hints i = Some ActuallyLiteral -> nth_error codes i = Some c -> exists b, c = Literal b) ->
  p = pos ->
  (looked_up data p hints codes = Some codes <->
   forall i b, nth_error hints i = Some ActuallyLiteral -> nth_error codes i = Some (Literal b) ->
     nth_error data (pos + codes_bytes (firstn i codes)) = Some b).
Proof.
  revert pos. induction hints as [|h hints IH]; intros pos [|c codes] p HL HC ->; cbn [List.length] in HL; try discriminate.
  - split; [|reflexivity]. intros _ [|i] b H; discriminate.
  - assert (HC' : forall i c, nth_error hints i = Some ActuallyLiteral -> nth_error codes i = Some c -> exists b, c = Literal b)
      by (intros i c' H1 H2; apply (HC (S i) c' H1 H2)).
    assert (IH' := IH (pos + code_bytes c)%nat codes _ ltac:(congruence) HC' eq_refl).
    assert (EQ : forall i, (pos + codes_bytes (firstn (S i) (c :: codes)) = pos + code_bytes c + codes_bytes (firstn i codes))%nat).
    { intro i. unfold codes_bytes. cbn [firstn map fold_right]. lia. }
    assert (TAIL : (forall i b, nth_error (h :: hints) i = Some ActuallyLiteral -> nth_error (c :: codes) i = Some (Literal b) ->
                      nth_error data (pos + codes_bytes (firstn i (c :: codes))) = Some b)
              <-> (forall b, h = ActuallyLiteral -> c = Literal b -> nth_error data pos = Some b)
                  /\ looked_up data (pos + code_bytes c) hints codes = Some codes).
    { rewrite IH'. split.
      - intro H. split.
        + intros b -> ->. specialize (H 0%nat b eq_refl eq_refl). unfold codes_bytes in H. cbn [firstn map fold_right] in H. now rewrite Nat.add_0_r in H.
        + intros i b H1 H2. specialize (H (S i) b H1 H2). now rewrite EQ in H.
      - intros [H0 H] [|i] b H1 H2.
        + cbn [nth_error] in H1, H2. injection H1 as ->. injection H2 as ->. unfold codes_bytes. cbn [firstn map fold_right]. rewrite Nat.add_0_r. now apply H0.
        + rewrite EQ. now apply H. }
    rewrite TAIL. clear TAIL IH IH'. cbn [looked_up]. destruct h.
    + destruct (looked_up data (pos + code_bytes c) hints codes) as [more|]; cbn [option_map]; split.
      * intro E. injection E as ->. split; [discriminate|reflexivity].
      * intros [_ E]. injection E as ->. reflexivity.
      * discriminate.
      * intros [_ E]. discriminate.
    + destruct (HC 0%nat c eq_refl eq_refl) as (b & ->).
      destruct (nth_error data pos) as [b'|]; [destruct (looked_up data (pos + code_bytes (Literal b)) hints codes) as [more|]|]; split.
      * intro E. injection E as -> ->. split; [intros b0 _ [= ->]; reflexivity|reflexivity].
      * intros [E1 E2]. injection E2 as ->. specialize (E1 b eq_refl eq_refl). injection E1 as ->. reflexivity.
      * discriminate.
      * intros [_ E]. discriminate.
      * discriminate.
      * intros [E _]. specialize (E b eq_refl eq_refl). discriminate.
    + destruct (looked_up data (pos + code_bytes c) hints codes) as [more|]; cbn [option_map]; split.
      * intro E. injection E as ->. split; [discriminate|reflexivity].
      * intros [_ E]. injection E as ->. reflexivity.
      * discriminate.
      * intros [_ E]. discriminate.
Qed.

(** A hint "really a literal" stands for a literal. *)
Lemma trace_literal t : forall fuel s codes tr, trace_loop fuel t s codes = Ok tr ->
  forall i c, nth_error tr i = Some ActuallyLiteral -> nth_error codes i = Some c -> exists b, c = Literal b.
Proof.
  induction fuel as [|fuel IH]; intros s codes tr HT i c H1 H2; cbn [trace_loop] in HT; [discriminate|].
  destruct (more_data t s); [|injection HT as <-; destruct i; discriminate].
  apply obind_ok in HT. destruct HT as (gs & _ & HT). destruct gs as [|g gs0] eqn:EGS; [discriminate|]. rewrite <- EGS in *.
  destruct (shared_prefix gs codes) as [m rest] eqn:ES. destruct (shared_prefix_spec _ _ _ _ ES) as (more & _ & E2 & _).
  assert (IM : forall tl, nth_error (map (fun _ : Code => Correct) m ++ tl) i = Some ActuallyLiteral ->
     (List.length m <= i)%nat /\ nth_error tl (i - List.length m) = Some ActuallyLiteral).
  { intros tl H. destruct (Nat.ltb_spec i (List.length m)).
    - rewrite nth_error_app1 in H by (rewrite map_length; assumption). apply nth_error_In, in_map_iff in H. destruct H as (? & ? & _). discriminate.
    - rewrite nth_error_app2 in H by (rewrite map_length; assumption). rewrite map_length in H. auto. }
  destruct (Nat.eqb _ _).
  - apply obind_ok in HT. destruct HT as (tr' & ET & HT). injection HT as <-. destruct (IM _ H1) as [HI H1']. rewrite E2, nth_error_app2 in H2 by assumption.
    eapply IH; eauto.
  - destruct rest as [|code rest]; [discriminate|]. apply obind_ok in HT. destruct HT as (tr' & ET & HT). injection HT as <-.
    destruct (IM _ H1) as [HI H1']. rewrite E2, nth_error_app2 in H2 by assumption. destruct (i - List.length m)%nat as [|j].
    + cbn [nth_error] in H1', H2. injection H2 as ->. destruct c; [eauto|discriminate].
    + cbn [nth_error] in H1', H2. eapply IH; eauto.
Qed.

Section Exact.
  Context (config : Config) (preroll data : list N) (limit : N) (refs : AllRefs) (codes : list Code) (hints : list Trace).
  Context (B1 : bytes_ok preroll) (B2 : bytes_ok data) (EW : with_sixteen preroll data limit = Ok refs)
    (HE : encodes preroll data codes) (ET : trace codes (mkTechnique config refs) = Ok hints).

  Lemma restored_codes : restore hints (mkTechnique config refs) = opt_result (looked_up data (List.length preroll) hints codes).
  Proof.
    destruct (technique_of config _ _ _ _ EW) as (R & EP & EL & EPre). set (t := mkTechnique config refs) in *.
    assert (HB : bytes_ok (preroll ++ data)) by now apply Forall_app. assert (HF := HE). apply finishes_encodes in HF. rewrite <- EP in HF.
    assert (RE := restore_exact _ t R HB (S (sc_data_len t)) (scanner t) codes hints HF ltac:(rewrite EL; lia) ET).
    unfold restore. rewrite RE, EP. f_equal. f_equal. destruct R as (RW & _). subst t. cbn [t_refs] in *. rewrite EPre in RW. now apply app_inv_head in RW.
  Qed.

  Lemma found_iff : looked_up data (List.length preroll) hints codes = Some codes <-> literals_found preroll data hints codes.
  Proof.
    apply looked_up_same; [| |reflexivity].
    - destruct (C41_lemma config _ _ _ _ _ B1 B2 EW HE) as (h & E & L). rewrite ET in E. injection E as <-. exact L.
    - exact (trace_literal _ _ _ _ _ ET).
  Qed.
End Exact.

Lemma C40_lemma_exact : forall config preroll data limit refs codes hints,
  bytes_ok preroll -> bytes_ok data -> with_sixteen preroll data limit = Ok refs -> encodes preroll data codes ->
  trace codes (mkTechnique config refs) = Ok hints ->
  (restore hints (mkTechnique config refs) = Ok codes <-> literals_found preroll data hints codes)
  /\ restore hints (mkTechnique config refs)
     = match looked_up data (List.length preroll) hints codes with Some other => Ok other | None => Panic "index out of bounds" end.
Proof.
  intros config preroll data limit refs codes hints B1 B2 EW HE ET.
  assert (RC := restored_codes config preroll data limit refs codes hints B1 B2 EW HE ET). split; [|exact RC].
  rewrite <- (found_iff config preroll data limit refs codes hints B1 B2 EW HE ET). rewrite RC.
  destruct (looked_up data (List.length preroll) hints codes) as [o|]; cbn [opt_result]; split; congruence.
Qed.

Lemma C46_lemma_exact : forall level config preroll data codes refs hints,
  Config_gzip level = Ok config ->
  bytes_ok preroll -> bytes_ok data -> Forall code_ok codes -> encodes preroll data codes ->
  with_sixteen preroll data (match insert_only_below_length (cfg_wams config) with Some l => l | None => 65535 end) = Ok refs ->
  trace codes (mkTechnique config refs) = Ok hints ->
  literals_found preroll data hints codes /\ try_gzip level preroll data codes = Ok hints
  \/ ~ literals_found preroll data hints codes /\ exists m, try_gzip level preroll data codes = Panic m.
Proof.
  intros level config preroll data codes refs hints EC B1 B2 HC HE EW ET.
  assert (RC := restored_codes config preroll data _ refs codes hints B1 B2 EW HE ET).
  assert (FI := found_iff config preroll data _ refs codes hints B1 B2 EW HE ET).
  destruct (trace_lemma config preroll data _ refs codes B1 B2 EW HE) as (h & E & L & HI & _ & _). rewrite ET in E. injection E as <-.
  unfold try_gzip. rewrite EC. cbn [obind]. unfold tracer_try. rewrite EW. cbn [obind]. unfold validate. rewrite ET. cbn [obind]. rewrite RC.
  destruct (looked_up data (List.length preroll) hints codes) as [o|]; cbn [opt_result obind].
  - destruct (slice_eqb Code_eqb codes o) eqn:ES.
    + apply slice_eqb_true in ES; [|intros a b; apply Code_eqb_spec]. subst o. left. split; [now apply FI|]. cbn [obind].
      destruct (C43_lemma hints (hints_ok_of_codes _ _ HC HI)) as (bs & _ & _ & EV). rewrite EV. reflexivity.
    + right. cbn [obind]. split; [|eauto]. intro F. apply FI in F. injection F as ->. rewrite slice_eqb_refl in ES; [discriminate|]. intro a. now apply Code_eqb_spec.
  - right. split; [|eauto]. intro F. apply FI in F. discriminate.
Qed.

(** ** Whole streams *)
Lemma lastn_bytes n hist : bytes_ok hist -> bytes_ok (lastn n hist).
Proof.
  intro HB. assert (S := firstn_skipn (List.length hist - n) hist). rewrite <- S in HB. apply Forall_app in HB. apply HB.
Qed.

Lemma codes_trace_exact level hist data codes : 1 <= level <= 9 -> bytes_ok hist -> Forall code_ok codes ->
  lz_decode 32768 hist codes = Some (hist ++ data) ->
  ((exists t, trace_to_bytes level (lastn (N.to_nat 32768) hist) data codes = Ok t)
   <-> found_at_level level (lastn (N.to_nat 32768) hist) data codes).
Proof.
  intros HL HB HC HE.
  assert (HD : bytes_ok data) by (assert (X := lz_decode_bytes _ _ _ _ HB HC HE); apply Forall_app in X; apply X).
  assert (HP := lastn_bytes (N.to_nat 32768) hist HB). apply encodes_window in HE. split.
  - intros (t & ET). destruct (level_config level HL) as (c & EC).
    destruct (with_sixteen_ok (lastn (N.to_nat 32768) hist) data (match insert_only_below_length (cfg_wams c) with Some l => l | None => 65535 end)) as (refs & EW & _).
    destruct (C41_lemma c _ data _ refs codes HP HD EW HE) as (hints & EH & _).
    destruct (C46_lemma_exact level c _ data codes refs hints EC HP HD HC HE EW EH) as [[F _]|[_ (m & EP)]]; [now apply (found_level_iff level c _ data refs codes hints EC HP HD EW EH)|].
    unfold trace_to_bytes in ET. rewrite EP in ET. discriminate.
  - intro F. destruct (level_config level HL) as (c & EC).
    destruct (with_sixteen_ok (lastn (N.to_nat 32768) hist) data (match insert_only_below_length (cfg_wams c) with Some l => l | None => 65535 end)) as (refs & EW & _).
    destruct (C41_lemma c _ data _ refs codes HP HD EW HE) as (hints & ET & _).
    destruct (C46_lemma_exact level c _ data codes refs hints EC HP HD HC HE EW ET) as [[_ ER]|[NF _]]; [|destruct (NF (proj1 (found_level_iff level c _ data refs codes hints EC HP HD EW ET) F))].
    destruct (write_spec (S (List.length hints)) hints ltac:(lia)) as (bs & EB & _).
    exists bs. unfold trace_to_bytes. rewrite ER. exact EB.
Qed.

Lemma take_apart_iff level : 1 <= level <= 9 -> forall blocks hist, bytes_ok hist -> Forall block_wf blocks ->
  forall dict, ring 32768 hist dict -> ((exists parts, take_apart level blocks dict = Ok parts) <-> restorable level hist blocks).
Proof.
  intros HL. induction blocks as [|b blocks IH]; intros hist HB HW dict R.
  { split; [constructor|intros _; now exists []]. }
  inversion HW as [|b0 l0 WB WS]; subst. cbn [take_apart]. rewrite (ring_vec_lastn hist dict R). cbn [obind].
  assert (X := block_run hist dict b R). destruct (lz_decode 32768 hist (block_codes b)) as [h|] eqn:HE.
  2: { destruct X as (e & [d o] & EB). rewrite EB. cbn [obind]. split; [intros (? & ?); discriminate|]. intro T. inversion T. congruence. }
  destruct X as (data & dict' & -> & EB & _ & R').
  rewrite EB. cbn [obind written].
  assert (CO : Forall code_ok (block_codes b)).
  { unfold block_wf in WB. destruct b; cbn [block_codes]; auto. apply Forall_map. apply WB. }
  assert (HB' : bytes_ok (hist ++ data)) by (eapply lz_decode_bytes; [exact HB|exact CO|exact HE]).
  specialize (IH (hist ++ data) HB' WS dict' R').
  assert (HP : (exists p, match b with
            | Uncompressed _ => Ok (PStored data)
            | FixedHuffman codes => t <-? trace_to_bytes level (lastn (N.to_nat 32768) hist) data codes ;; Ok (PFixed data t)
            | DynamicHuffman trees codes => t <-? trace_to_bytes level (lastn (N.to_nat 32768) hist) data codes ;; Ok (PDynamic trees data t)
            end = Ok p)
     <-> ((exists d, b = Uncompressed d)
     \/ found_at_level level (lastn (N.to_nat 32768) hist) data (block_codes b))).
  { destruct b as [d|cs|v cs].
    - split; [left; eauto|intros _; eauto].
    - cbn [block_codes] in *. rewrite <- (codes_trace_exact level hist data cs HL HB CO HE). split.
      + intros (p & E). right. apply obind_ok in E. destruct E as (t & E & _). eauto.
      + intros [(d & ?)|(t & E)]; [discriminate|]. rewrite E. cbn [obind]. eauto.
    - cbn [block_codes] in *. rewrite <- (codes_trace_exact level hist data cs HL HB CO HE). split.
      + intros (p & E). right. apply obind_ok in E. destruct E as (t & E & _). eauto.
      + intros [(d & ?)|(t & E)]; [discriminate|]. rewrite E. cbn [obind]. eauto. }
  split.
  - intros (parts & E). apply obind_ok in E. destruct E as (p & EPP & E). apply obind_ok in E. destruct E as (ps & EPS & _).
    apply (res_cons level hist data); [exact HE|apply HP; eauto|apply IH; eauto].
  - intro T. inversion T as [|? data' ? ? HE' HT TS]; subst. rewrite HE in HE'. injection HE' as E'. apply app_inv_head in E'. subst data'.
    apply HP in HT. destruct HT as (p & EPP). rewrite EPP. cbn [obind]. apply IH in TS. destruct TS as (ps & EPS). rewrite EPS. cbn [obind]. eauto.
Qed.

Lemma C52_lemma_exact : forall level bytes e blocks it dictionary, 1 <= level <= 9 ->
  bytes_ok bytes ->
  parse_all (mkSource bytes e) = (Ok blocks, it) ->
  cb_new = Ok dictionary ->
  ((exists parts, take_apart level blocks dictionary = Ok parts) <-> restorable level [] blocks).
Proof.
  intros level bytes e blocks it dict HL HB EP EN. destruct (ring_new 32768 ltac:(lia)) as (d0 & E0 & R0).
  assert (d0 = dict) as -> by (assert (X0 : cb_with_capacity 32768 = Ok dict) by exact EN; congruence).
  destruct (parse_all_wf _ _ _ _ HB EP) as [WF _]. apply (take_apart_iff level HL blocks []); auto. constructor.
Qed.
