(** Properties C39-C46: tracing, restoring and serialised traces (lib/src/trace.rs, serialise_trace.rs,
    tracer.rs). *)
From Verif Require Import Base M_lib M_all_refs M_technique M_trace Spec Clients L_P_trace.
Local Open Scope N_scope.

(** C39: enough Correct hints restore to codes, and whatever they restore to decodes to the data. *)
Theorem C39_guesses_compress : forall config preroll data limit refs,
  bytes_ok preroll -> bytes_ok data -> with_sixteen preroll data limit = Ok refs ->
  (forall n, (List.length data <= n)%nat -> exists codes, restore (repeat Correct n) (mkTechnique config refs) = Ok codes)
  /\ (forall n codes, restore (repeat Correct n) (mkTechnique config refs) = Ok codes -> encodes preroll data codes /\ Forall code_ok codes).
Proof. exact C39_lemma. Qed.
Print Assumptions C39_guesses_compress.

Example C39_case : exists refs codes, with_sixteen [9; 1; 2; 3] [1; 2; 3; 1; 2; 3; 7] 9 = Ok refs
  /\ restore (repeat Correct 7) (mkTechnique (mkConfig false LGreedy Longest (mkWams 258 16 None None)) refs) = Ok codes
  /\ codes = [Reference (mkRef 3 3); Literal 7].
Proof. eexists. eexists. split; [vm_compute; reflexivity|]. split; [vm_compute; reflexivity|]. reflexivity. Qed.

(** C40: restoring inverts tracing.  Missing from the full property: hints that a guess was really a literal
    when there is a preroll, for which it is false (below). *)
Theorem C40_restore_inverts_trace_partial : forall config preroll data limit refs codes hints,
  bytes_ok preroll -> bytes_ok data -> with_sixteen preroll data limit = Ok refs -> encodes preroll data codes ->
  trace codes (mkTechnique config refs) = Ok hints ->
  preroll = [] \/ ~ In ActuallyLiteral hints ->
  restore hints (mkTechnique config refs) = Ok codes.
Proof. exact C40_lemma. Qed.
Print Assumptions C40_restore_inverts_trace_partial.

(** Both escape hints, without preroll. *)
Example C40_case : exists refs, with_sixteen [] [9; 1; 2; 3; 1; 2; 3; 1; 2; 3] 9 = Ok refs
  /\ encodes [] [9; 1; 2; 3; 1; 2; 3; 1; 2; 3] [Literal 9; Literal 1; Literal 2; Literal 3; Literal 1; Literal 2; Literal 3; Reference (mkRef 6 0)]
  /\ trace [Literal 9; Literal 1; Literal 2; Literal 3; Literal 1; Literal 2; Literal 3; Reference (mkRef 6 0)]
       (mkTechnique (mkConfig false LGreedy Longest (mkWams 258 16 None None)) refs)
     = Ok [Correct; Correct; Correct; Correct; ActuallyLiteral; ActuallyLiteral; ActuallyLiteral; Actually (mkRef 6 0)].
Proof. eexists. split; [vm_compute; reflexivity|]. split; vm_compute; reflexivity. Qed.

(** C40 is false of the code with a preroll: other codes come back. *)
Theorem C40_restore_inverts_trace_refuted : exists config preroll data limit refs codes hints other,
  with_sixteen preroll data limit = Ok refs /\ encodes preroll data codes
  /\ trace codes (mkTechnique config refs) = Ok hints
  /\ restore hints (mkTechnique config refs) = Ok other /\ other <> codes.
Proof. exact C40_lemma_refuted. Qed.
Print Assumptions C40_restore_inverts_trace_refuted.

(** C41: tracing returns one hint per code. *)
Theorem C41_trace_total : forall config preroll data limit refs codes,
  bytes_ok preroll -> bytes_ok data -> with_sixteen preroll data limit = Ok refs -> encodes preroll data codes ->
  exists hints, trace codes (mkTechnique config refs) = Ok hints /\ List.length hints = List.length codes.
Proof. exact C41_lemma. Qed.
Print Assumptions C41_trace_total.

(** A preroll, a reference reaching into it and one that was not guessed. *)
Example C41_case : exists refs, with_sixteen [9; 1; 2; 3] [1; 2; 3; 4; 1; 2; 3; 5] 9 = Ok refs
  /\ encodes [9; 1; 2; 3] [1; 2; 3; 4; 1; 2; 3; 5] [Reference (mkRef 3 0); Literal 4; Reference (mkRef 7 0); Literal 5]
  /\ trace [Reference (mkRef 3 0); Literal 4; Reference (mkRef 7 0); Literal 5] (mkTechnique (mkConfig false LGreedy Longest (mkWams 258 16 None None)) refs)
     = Ok [Correct; Correct; Actually (mkRef 7 0); Correct].
Proof. eexists. split; [vm_compute; reflexivity|]. split; vm_compute; reflexivity. Qed.

(** C42: only Correct hints exactly when the codes are the technique's own. *)
Theorem C42_correct_means_reproduced : forall config preroll data limit refs codes hints,
  bytes_ok preroll -> bytes_ok data -> with_sixteen preroll data limit = Ok refs -> encodes preroll data codes ->
  trace codes (mkTechnique config refs) = Ok hints ->
  ((forall h, In h hints -> h = Correct)
   <-> generates (mkTechnique config refs) (scanner (mkTechnique config refs)) codes).
Proof. exact C42_lemma. Qed.
Print Assumptions C42_correct_means_reproduced.

Example C42_case : exists refs, with_sixteen [] [9; 1; 2; 3; 1; 2; 3] 9 = Ok refs
  /\ trace [Literal 9; Literal 1; Literal 2; Literal 3; Reference (mkRef 3 0)]
       (mkTechnique (mkConfig false LGreedy Longest (mkWams 258 16 None None)) refs)
     = Ok [Correct; Correct; Correct; Correct; Correct].
Proof. eexists. split; [vm_compute; reflexivity|]. vm_compute; reflexivity. Qed.

(** C43: writing and reading back gives the same hints, so [verify] returns. *)
Theorem C43_trace_round_trip : forall hints, Forall hint_ok hints ->
  exists bytes, st_write hints = Ok bytes /\ fst (st_read (mkSource bytes UnexpectedEof)) = Ok hints /\ st_verify hints = Ok bytes.
Proof. exact C43_lemma. Qed.
Print Assumptions C43_trace_round_trip.

Example C43_case : Forall hint_ok [Correct; Actually (mkRef 32768 255); ActuallyLiteral; Correct; Correct; Actually (mkRef 1 0)].
Proof. repeat constructor; unfold ref_ok; cbn; lia. Qed.

(** C44: reading returns for every input; it is an error exactly when a distance lacks its length.  Missing
    from the full property: a single leftover byte, for which it is false (below). *)
Theorem C44_malformed_traces_partial : forall bytes, bytes_ok bytes ->
  exists whole tail hints, bytes = whole ++ tail /\ trace_bytes whole hints
    /\ (((List.length tail <= 1)%nat /\ fst (st_read (mkSource bytes UnexpectedEof)) = Ok hints)
        \/ (exists lo hi, tail = [lo; hi] /\ 1 <= lo + 256 * hi <= 32768
            /\ fst (st_read (mkSource bytes UnexpectedEof)) = Err (EIo UnexpectedEof))).
Proof. exact C44_lemma. Qed.
Print Assumptions C44_malformed_traces_partial.

Example C44_case : fst (st_read (mkSource [0; 0; 5; 0] UnexpectedEof)) = Err (EIo UnexpectedEof)
  /\ fst (st_read (mkSource [0; 0; 5; 0; 7; 3; 128] UnexpectedEof)) = Ok [ActuallyLiteral; Actually (mkRef 5 7); Correct; Correct; Correct].
Proof. split; vm_compute; reflexivity. Qed.

(** C44 is false of the code: a trace cut in the middle of a record is accepted. *)
Theorem C44_malformed_traces_refuted : exists hints bytes n,
  st_write hints = Ok bytes /\ (n < List.length bytes)%nat
  /\ (forall hints', ~ trace_bytes (firstn n bytes) hints')
  /\ fst (st_read (mkSource (firstn n bytes) UnexpectedEof)) = Ok [].
Proof. exact C44_lemma_refuted. Qed.
Print Assumptions C44_malformed_traces_refuted.

(** C45: at most three bytes for each hint. *)
Theorem C45_trace_size : forall hints, exists bytes, st_write hints = Ok bytes /\ (List.length bytes <= 3 * List.length hints)%nat.
Proof. exact C45_lemma. Qed.
Print Assumptions C45_trace_size.

(** C45: a run of [n] correct hints between others costs exactly [2 * ceil (n / 32767)] bytes. *)
Theorem C45_run_size : forall before n after, (0 < n)%nat ->
  hd_error (rev before) <> Some Correct -> hd_error after <> Some Correct ->
  exists a run b, st_write before = Ok a /\ st_write after = Ok b
    /\ st_write (before ++ repeat Correct n ++ after) = Ok (a ++ run ++ b)
    /\ N.of_nat (List.length run) = 2 * ((N.of_nat n + 32766) / 32767).
Proof. exact C45_lemma_runs. Qed.
Print Assumptions C45_run_size.

Example C45_case : hd_error (rev [Correct; ActuallyLiteral]) <> Some Correct /\ hd_error [Actually (mkRef 3 4); Correct] <> Some Correct
  /\ st_write ([Correct; ActuallyLiteral] ++ repeat Correct 3 ++ [Actually (mkRef 3 4); Correct])
     = Ok ([1; 128; 0; 0] ++ [3; 128] ++ [3; 0; 4; 1; 128]).
Proof. split; [discriminate|]. split; [discriminate|]. vm_compute. reflexivity. Qed.

(** C46: without a preroll [try_gzip] always returns, with one hint per code. *)
Theorem C46_try_gzip_partial : forall level data codes, 1 <= level <= 9 ->
  bytes_ok data -> Forall code_ok codes -> encodes [] data codes ->
  exists hints, try_gzip level [] data codes = Ok hints /\ List.length hints = List.length codes.
Proof. exact C46_lemma. Qed.
Print Assumptions C46_try_gzip_partial.

(** C46: with a preroll it returns when no guess was really a literal. *)
Theorem C46_try_gzip_preroll_partial : forall level config preroll data codes refs hints,
  Config_gzip level = Ok config ->
  bytes_ok preroll -> bytes_ok data -> Forall code_ok codes -> encodes preroll data codes ->
  with_sixteen preroll data (match insert_only_below_length (cfg_wams config) with Some l => l | None => 65535 end) = Ok refs ->
  trace codes (mkTechnique config refs) = Ok hints -> ~ In ActuallyLiteral hints ->
  try_gzip level preroll data codes = Ok hints.
Proof. exact C46_lemma_preroll. Qed.
Print Assumptions C46_try_gzip_preroll_partial.

Example C46_case : (1 <= 3 <= 9) /\ encodes [] [5; 5; 5; 5; 5] [Literal 5; Reference (mkRef 1 1)]
  /\ Forall code_ok [Literal 5; Reference (mkRef 1 1)]
  /\ try_gzip 3 [] [5; 5; 5; 5; 5] [Literal 5; Reference (mkRef 1 1)] = Ok [Correct; Actually (mkRef 1 1)]
  /\ try_gzip 3 [7; 8; 9; 1; 2; 3; 5] [1; 2; 3; 4; 5; 5] [Reference (mkRef 4 0); Literal 4; Literal 5; Literal 5]
     = Ok [Correct; Correct; Correct; Correct].
Proof.
  split; [lia|]. split; [vm_compute; reflexivity|]. split; [repeat constructor; unfold ref_ok; cbn; lia|]. split; vm_compute; reflexivity.
Qed.

(** C46 is false of the code with a preroll: the validation panics. *)
Theorem C46_try_gzip_refuted : exists preroll data codes,
  encodes preroll data codes /\ Forall code_ok codes /\ try_gzip 1 preroll data codes = Panic "index out of bounds".
Proof. exact C46_lemma_refuted. Qed.
Print Assumptions C46_try_gzip_refuted.
