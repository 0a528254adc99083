(** Proofs of C39-C46. *)
From Verif Require Import Base M_bit M_lib M_all_refs M_technique M_trace Spec Clients L_bits L_ring L_search L_P_search L_tech L_P_tech L_trace L_strace.
From Coq Require Import ZArith ZifyBool ZifyNat ZifyN.
Ltac Zify.zify_post_hook ::= Z.div_mod_to_equations.
Local Open Scope N_scope.
Local Open Scope model_scope.

Lemma finishes_encodes preroll data codes : finishes (preroll ++ data) (List.length preroll) codes <-> encodes preroll data codes.
Proof.
  unfold finishes, encodes. rewrite firstn_app, Nat.sub_diag, firstn_O, app_nil_r, firstn_all. split; [tauto|].
  intro H. split; [rewrite app_length; lia|assumption].
Qed.

Lemma technique_of config preroll data limit refs : with_sixteen preroll data limit = Ok refs ->
  refs_of (preroll ++ data) (t_refs (mkTechnique config refs)) /\ sc_pos (scanner (mkTechnique config refs)) = List.length preroll
  /\ sc_data_len (mkTechnique config refs) = List.length (preroll ++ data) /\ ar_preroll refs = preroll.
Proof.
  intro E. destruct (with_sixteen_ok preroll data limit) as (a & E' & R & _ & HP & HD). rewrite E in E'. injection E' as <-.
  split; [exact R|]. unfold scanner, sc_data_len. cbn [t_refs sc_pos]. rewrite HP. split; [reflexivity|]. split; [now apply ar_len|reflexivity].
Qed.

Lemma C39_lemma : forall config preroll data limit refs,
  bytes_ok preroll -> bytes_ok data -> with_sixteen preroll data limit = Ok refs ->
  (forall n, (List.length data <= n)%nat -> exists codes, restore (repeat Correct n) (mkTechnique config refs) = Ok codes)
  /\ (forall n codes, restore (repeat Correct n) (mkTechnique config refs) = Ok codes -> encodes preroll data codes /\ Forall code_ok codes).
Proof.
  intros config preroll data limit refs B1 B2 EW. set (t := mkTechnique config refs).
  destruct (technique_of config _ _ _ _ EW) as (R & EP & EL & _). fold t in R, EP, EL.
  assert (HB : bytes_ok (preroll ++ data)) by now apply Forall_app.
  destruct (generates_exists _ t R HB (S (List.length (preroll ++ data))) (scanner t)) as (cs & HG & HF & HO).
  - lia.
  - rewrite EP, app_length. lia.
  - assert (RC := fun n => restore_corrects _ t R HB (S (sc_data_len t)) (scanner t) cs n HG ltac:(rewrite EP, app_length; lia) ltac:(rewrite EL; lia)).
    unfold restore. rewrite EP in HF. apply finishes_encodes in HF. split.
    + intros n Hn. rewrite RC. destruct (Nat.leb_spec (List.length cs) n); [eauto|]. exfalso.
      assert (X := lz_decode_length _ _ _ _ HF). rewrite app_length in X. assert (Y := emitted_count cs). lia.
    + intros n codes E. rewrite RC in E. destruct (_ <=? _)%nat; [|discriminate]. injection E as <-. auto.
Qed.

Lemma trace_lemma : forall config preroll data limit refs codes,
  bytes_ok preroll -> bytes_ok data -> with_sixteen preroll data limit = Ok refs -> encodes preroll data codes ->
  exists hints, trace codes (mkTechnique config refs) = Ok hints /\ List.length hints = List.length codes
    /\ (forall r, In (Actually r) hints -> In (Reference r) codes)
    /\ ((forall h, In h hints -> h = Correct) <-> generates (mkTechnique config refs) (scanner (mkTechnique config refs)) codes)
    /\ (preroll = [] \/ ~ In ActuallyLiteral hints -> restore hints (mkTechnique config refs) = Ok codes).
Proof.
  intros config preroll data limit refs codes B1 B2 EW HE. set (t := mkTechnique config refs).
  destruct (technique_of config _ _ _ _ EW) as (R & EP & EL & EPre). fold t in R, EP, EL.
  assert (HB : bytes_ok (preroll ++ data)) by now apply Forall_app. apply finishes_encodes in HE. rewrite <- EP in HE.
  destruct (trace_ok _ t R HB (S (sc_data_len t)) (scanner t) codes HE ltac:(rewrite EL; lia)) as (tr & E & L & HI & HC & HR).
  exists tr. split; [exact E|]. split; [exact L|]. split; [exact HI|]. split; [exact HC|]. intro H. apply HR. unfold literals_at_data. cbn [t_refs]. subst t. cbn [t_refs]. rewrite EPre. exact H.
Qed.

Lemma C40_lemma : forall config preroll data limit refs codes hints,
  bytes_ok preroll -> bytes_ok data -> with_sixteen preroll data limit = Ok refs -> encodes preroll data codes ->
  trace codes (mkTechnique config refs) = Ok hints ->
  preroll = [] \/ ~ In ActuallyLiteral hints ->
  restore hints (mkTechnique config refs) = Ok codes.
Proof.
  intros config preroll data limit refs codes hints B1 B2 EW HE ET HP.
  destruct (trace_lemma config preroll data limit refs codes B1 B2 EW HE) as (h & E & _ & _ & _ & HR). rewrite ET in E. injection E as <-. auto.
Qed.

(** The literals of the data are looked up without regard to the preroll. *)
Lemma C40_lemma_refuted : exists config preroll data limit refs codes hints other,
  with_sixteen preroll data limit = Ok refs /\ encodes preroll data codes
  /\ trace codes (mkTechnique config refs) = Ok hints
  /\ restore hints (mkTechnique config refs) = Ok other /\ other <> codes.
Proof.
  exists (mkConfig true LGreedy Longest (mkWams 8 4 (Some 4) None)), [9; 1; 2; 3], [1; 2; 3; 7; 8], 4.
  eexists. exists [Literal 1; Literal 2; Literal 3; Literal 7; Literal 8]. eexists. eexists.
  split; [vm_compute; reflexivity|]. split; [vm_compute; reflexivity|]. split; [vm_compute; reflexivity|].
  split; [vm_compute; reflexivity|]. discriminate.
Qed.

Lemma C41_lemma : forall config preroll data limit refs codes,
  bytes_ok preroll -> bytes_ok data -> with_sixteen preroll data limit = Ok refs -> encodes preroll data codes ->
  exists hints, trace codes (mkTechnique config refs) = Ok hints /\ List.length hints = List.length codes.
Proof.
  intros config preroll data limit refs codes B1 B2 EW HE.
  destruct (trace_lemma config preroll data limit refs codes B1 B2 EW HE) as (h & E & L & _). eauto.
Qed.

Lemma C42_lemma : forall config preroll data limit refs codes hints,
  bytes_ok preroll -> bytes_ok data -> with_sixteen preroll data limit = Ok refs -> encodes preroll data codes ->
  trace codes (mkTechnique config refs) = Ok hints ->
  ((forall h, In h hints -> h = Correct)
   <-> generates (mkTechnique config refs) (scanner (mkTechnique config refs)) codes).
Proof.
  intros config preroll data limit refs codes hints B1 B2 EW HE ET.
  destruct (trace_lemma config preroll data limit refs codes B1 B2 EW HE) as (h & E & L & _ & HC & _). rewrite ET in E. injection E as <-. exact HC.
Qed.

Lemma C43_lemma : forall hints, Forall hint_ok hints ->
  exists bytes, st_write hints = Ok bytes /\ fst (st_read (mkSource bytes UnexpectedEof)) = Ok hints /\ st_verify hints = Ok bytes.
Proof.
  intros hints HO. destruct (write_spec (S (List.length hints)) hints ltac:(lia)) as (bs & E & HT & _). destruct (HT HO) as [HT1 HT2].
  exists bs. split; [exact E|]. assert (ER : fst (st_read (mkSource bs UnexpectedEof)) = Ok hints).
  { destruct (read_spec bs [] hints UnexpectedEof HT1 HT2) as [HR _]. rewrite app_nil_r in HR. apply HR. cbn. lia. }
  split; [exact ER|]. unfold st_verify. rewrite E. cbn [obind]. rewrite ER. rewrite slice_eqb_refl; [reflexivity|]. intro a. now apply Trace_eqb_spec.
Qed.

Lemma C44_lemma : forall bytes, bytes_ok bytes ->
  exists whole tail hints, bytes = whole ++ tail /\ trace_bytes whole hints
    /\ (((List.length tail <= 1)%nat /\ fst (st_read (mkSource bytes UnexpectedEof)) = Ok hints)
        \/ (exists lo hi, tail = [lo; hi] /\ 1 <= lo + 256 * hi <= 32768
            /\ fst (st_read (mkSource bytes UnexpectedEof)) = Err (EIo UnexpectedEof))).
Proof.
  intros bytes HB. destruct (parse_records (S (List.length bytes)) bytes ltac:(lia) HB) as (g & t & h & E & HT & HL). exists g, t, h.
  split; [exact E|]. split; [exact HT|]. subst bytes. apply Forall_app in HB. destruct HB as [HB _].
  destruct (read_spec g t h UnexpectedEof HT HB) as [H1 H2]. destruct HL as [HL|(lo & hi & -> & HV)].
  - left. split; [lia|]. now apply H1.
  - right. exists lo, hi. split; [reflexivity|]. split; [assumption|]. now apply (H2 lo hi).
Qed.

(** A literal's record cut in half is not noticed. *)
Lemma C44_lemma_refuted : exists hints bytes n,
  st_write hints = Ok bytes /\ (n < List.length bytes)%nat
  /\ (forall hints', ~ trace_bytes (firstn n bytes) hints')
  /\ fst (st_read (mkSource (firstn n bytes) UnexpectedEof)) = Ok [].
Proof.
  exists [ActuallyLiteral], [0; 0], 1%nat. split; [reflexivity|]. split; [cbn; lia|]. split; [|reflexivity].
  intros h H. cbn [firstn] in H. inversion H.
Qed.

Lemma C45_lemma : forall hints, exists bytes, st_write hints = Ok bytes /\ (List.length bytes <= 3 * List.length hints)%nat.
Proof. intro hints. destruct (write_spec (S (List.length hints)) hints ltac:(lia)) as (bs & E & _ & HS). eauto. Qed.

Lemma C45_lemma_runs : forall before n after, (0 < n)%nat ->
  hd_error (rev before) <> Some Correct -> hd_error after <> Some Correct ->
  exists a run b, st_write before = Ok a /\ st_write after = Ok b
    /\ st_write (before ++ repeat Correct n ++ after) = Ok (a ++ run ++ b)
    /\ N.of_nat (List.length run) = 2 * ((N.of_nat n + 32766) / 32767).
Proof.
  intros before n after Hn HB HA.
  assert (SA : starts_correct after = false) by (destruct after as [|[]]; try reflexivity; cbn in HA; congruence).
  assert (SB : starts_correct (rev before) = false) by (destruct (rev before) as [|[]]; try reflexivity; cbn in HB; congruence).
  destruct (write_spec (S (List.length before)) before ltac:(lia)) as (a & EA & _).
  destruct (write_spec (S (List.length after)) after ltac:(lia)) as (b & EB & _).
  destruct n as [|n]; [lia|]. destruct (write_corrects_spec (N.of_nat (S n))) as (run & ER & _ & _ & HL); [lia|].
  exists a, run, b. split; [exact EA|]. split; [exact EB|]. split; [|exact HL].
  rewrite (write_app (S (List.length before))) by (auto; lia). rewrite EA. cbn [obind]. rewrite write_run by assumption. rewrite ER. cbn [obind]. rewrite EB. reflexivity.
Qed.

Lemma hints_ok_of_codes codes hints : Forall code_ok codes -> (forall r, In (Actually r) hints -> In (Reference r) codes) -> Forall hint_ok hints.
Proof.
  intros HC HI. apply Forall_forall. intros h Hh. destruct h; cbn [hint_ok]; auto. apply HI in Hh. rewrite Forall_forall in HC. apply (HC _ Hh).
Qed.

Lemma tracer_try_ok config preroll data codes refs hints :
  bytes_ok preroll -> bytes_ok data -> Forall code_ok codes -> encodes preroll data codes ->
  with_sixteen preroll data (match insert_only_below_length (cfg_wams config) with Some l => l | None => 65535 end) = Ok refs ->
  trace codes (mkTechnique config refs) = Ok hints -> preroll = [] \/ ~ In ActuallyLiteral hints ->
  tracer_try config preroll data codes = Ok hints.
Proof.
  intros B1 B2 HC HE EW ET HP. destruct (trace_lemma config preroll data _ refs codes B1 B2 EW HE) as (h & E & L & HI & _ & HR).
  rewrite ET in E. injection E as <-. unfold tracer_try. rewrite EW. cbn [obind]. unfold validate. rewrite ET. cbn [obind]. rewrite (HR HP). cbn [obind].
  rewrite slice_eqb_refl by (intro; now apply Code_eqb_spec). cbn [obind].
  destruct (C43_lemma hints (hints_ok_of_codes _ _ HC HI)) as (bs & _ & _ & EV). rewrite EV. reflexivity.
Qed.

Lemma C46_lemma : forall level data codes, 1 <= level <= 9 ->
  bytes_ok data -> Forall code_ok codes -> encodes [] data codes ->
  exists hints, try_gzip level [] data codes = Ok hints /\ List.length hints = List.length codes.
Proof.
  intros level data codes HL HB HC HE. unfold try_gzip.
  destruct (Config_gzip level) as [c| | |] eqn:EC.
  - cbn [obind]. destruct (with_sixteen_ok [] data (match insert_only_below_length (cfg_wams c) with Some l => l | None => 65535 end)) as (refs & EW & _).
    destruct (trace_lemma c [] data _ refs codes ltac:(constructor) HB EW HE) as (h & E & L & _).
    exists h. split; [|exact L]. apply (tracer_try_ok c [] data codes refs); auto. constructor.
  - unfold Config_gzip in EC. destruct (_ && _) eqn:EL; [|discriminate]. unfold get_idx in EC. destruct (nth_error _ _); discriminate.
  - exfalso. unfold Config_gzip in EC. assert (X : (1 <=? level) && (level <=? 9) = true) by lia. rewrite X in EC. unfold get_idx in EC.
    destruct (nth_error CONFIGURATIONS (N.to_nat (level - 1))) eqn:EN; [discriminate|]. apply nth_error_None in EN. change (List.length CONFIGURATIONS) with 9%nat in EN. lia.
  - unfold Config_gzip in EC. destruct (_ && _) eqn:EL; [|discriminate]. unfold get_idx in EC. destruct (nth_error _ _); discriminate.
Qed.

Lemma C46_lemma_preroll : forall level config preroll data codes refs hints,
  Config_gzip level = Ok config ->
  bytes_ok preroll -> bytes_ok data -> Forall code_ok codes -> encodes preroll data codes ->
  with_sixteen preroll data (match insert_only_below_length (cfg_wams config) with Some l => l | None => 65535 end) = Ok refs ->
  trace codes (mkTechnique config refs) = Ok hints -> ~ In ActuallyLiteral hints ->
  try_gzip level preroll data codes = Ok hints.
Proof.
  intros level config preroll data codes refs hints EC B1 B2 HC HE EW ET HP. unfold try_gzip. rewrite EC. cbn [obind].
  apply (tracer_try_ok config preroll data codes refs); auto.
Qed.

Lemma C46_lemma_refuted : exists preroll data codes,
  encodes preroll data codes /\ Forall code_ok codes /\ try_gzip 1 preroll data codes = Panic "index out of bounds".
Proof.
  exists [1; 2; 3; 4], [5; 2; 3; 4; 9], [Literal 5; Literal 2; Literal 3; Literal 4; Literal 9].
  split; [vm_compute; reflexivity|]. split; [repeat constructor|]. vm_compute. reflexivity.
Qed.
