(** Properties C40, C46 and C52, exactly: which traces restore, and which streams can be taken apart. *)
From Verif Require Import Base M_bit M_lib M_circles M_parse M_serialise M_all_refs M_technique M_trace Spec Clients Clients_restore Clients_hints L_level L_restore L_P_inform L_P_retrace.
Local Open Scope N_scope.

(** C40: restoring inverts tracing exactly when every literal with a "really a literal" hint is found at the
    position the code looks at, which counts the preroll twice; otherwise it panics, or other literals come back. *)
Theorem C40_restore_exactly : forall config preroll data limit refs codes hints,
  bytes_ok preroll -> bytes_ok data -> with_sixteen preroll data limit = Ok refs -> encodes preroll data codes ->
  trace codes (mkTechnique config refs) = Ok hints ->
  (restore hints (mkTechnique config refs) = Ok codes <-> literals_found preroll data hints codes)
  /\ restore hints (mkTechnique config refs)
     = match looked_up data (List.length preroll) hints codes with Some other => Ok other | None => Panic "index out of bounds" end.
Proof. exact C40_lemma_exact. Qed.
Print Assumptions C40_restore_exactly.

(** C40: the trace does determine the codes, with or without a preroll: only the lookup in [restore] is wrong. *)
Theorem C40_trace_determines_codes : forall config preroll data limit refs codes1 codes2 hints,
  bytes_ok preroll -> bytes_ok data -> with_sixteen preroll data limit = Ok refs ->
  encodes preroll data codes1 -> encodes preroll data codes2 ->
  trace codes1 (mkTechnique config refs) = Ok hints -> trace codes2 (mkTechnique config refs) = Ok hints -> codes1 = codes2.
Proof. exact C40_lemma_determines. Qed.
Print Assumptions C40_trace_determines_codes.

Example C40_determines_case : exists refs, with_sixteen [9; 1; 2; 3] [1; 2; 3; 4; 6] 9 = Ok refs
  /\ encodes [9; 1; 2; 3] [1; 2; 3; 4; 6] [Literal 1; Literal 2; Literal 3; Literal 4; Literal 6]
  /\ encodes [9; 1; 2; 3] [1; 2; 3; 4; 6] [Reference (mkRef 3 0); Literal 4; Literal 6].
Proof. eexists. split; [vm_compute; reflexivity|]. split; vm_compute; reflexivity. Qed.

(** With a preroll, a literal that is found although it is looked up too far on. *)
Example C40_exactly_case_found : exists refs, with_sixteen [5; 5; 5] [5; 5; 5; 5; 5; 5; 5; 5] 9 = Ok refs
  /\ encodes [5; 5; 5] [5; 5; 5; 5; 5; 5; 5; 5] [Literal 5; Reference (mkRef 1 4)]
  /\ trace [Literal 5; Reference (mkRef 1 4)] (mkTechnique (mkConfig false LGreedy Longest (mkWams 258 16 None None)) refs) = Ok [ActuallyLiteral; Correct]
  /\ literals_found [5; 5; 5] [5; 5; 5; 5; 5; 5; 5; 5] [ActuallyLiteral; Correct] [Literal 5; Reference (mkRef 1 4)].
Proof.
  eexists. split; [vm_compute; reflexivity|]. split; [vm_compute; reflexivity|]. split; [vm_compute; reflexivity|].
  intros [|[|[|i]]] b E1 E2; try discriminate; injection E2 as <-; reflexivity.
Qed.

(** And one that is not: the first literal comes back as 6 instead of 1. *)
Example C40_exactly_case_other : exists refs, with_sixteen [9; 1; 2; 3] [1; 2; 3; 4; 6] 9 = Ok refs
  /\ encodes [9; 1; 2; 3] [1; 2; 3; 4; 6] [Literal 1; Literal 2; Literal 3; Literal 4; Literal 6]
  /\ trace [Literal 1; Literal 2; Literal 3; Literal 4; Literal 6] (mkTechnique (mkConfig false LGreedy Longest (mkWams 258 16 None None)) refs)
     = Ok [ActuallyLiteral; Correct; Correct; Correct; Correct]
  /\ looked_up [1; 2; 3; 4; 6] 4 [ActuallyLiteral; Correct; Correct; Correct; Correct] [Literal 1; Literal 2; Literal 3; Literal 4; Literal 6]
     = Some [Literal 6; Literal 2; Literal 3; Literal 4; Literal 6].
Proof. eexists. split; [vm_compute; reflexivity|]. split; [vm_compute; reflexivity|]. split; vm_compute; reflexivity. Qed.

(** C40, for any codes, whether or not they encode the data, and any technique: they can be traced and come back exactly if
    they go up to the end of the data and those literals are found. *)
Theorem C40_any_codes : forall config preroll data limit refs codes,
  bytes_ok preroll -> bytes_ok data -> with_sixteen preroll data limit = Ok refs ->
  ((exists hints, trace codes (mkTechnique config refs) = Ok hints /\ restore hints (mkTechnique config refs) = Ok codes)
   <-> covers (List.length (preroll ++ data)) (List.length preroll) codes
       /\ forall hints, trace codes (mkTechnique config refs) = Ok hints -> literals_found preroll data hints codes).
Proof. exact C40_lemma_any_codes. Qed.
Print Assumptions C40_any_codes.

(** Codes of something else, with a reference to before the beginning, come back; codes that stop too early do not. *)
Example C40_any_codes_case :
  match Config_spicy, with_sixteen [] [7; 1; 2; 3; 4] 65535 with
  | Ok config, Ok refs =>
      let t := mkTechnique config refs in
      trace [Literal 7; Reference (mkRef 9 1)] t = Ok [Correct; Actually (mkRef 9 1)]
      /\ restore [Correct; Actually (mkRef 9 1)] t = Ok [Literal 7; Reference (mkRef 9 1)]
      /\ covers 5 0 [Literal 7; Reference (mkRef 9 1)] /\ ~ encodes [] [7; 1; 2; 3; 4] [Literal 7; Reference (mkRef 9 1)]
      /\ trace [Literal 7; Literal 1] t = Panic "the guesser guessed more than there actually are?"
  | _, _ => False
  end.
Proof.
  vm_compute. split; [reflexivity|]. split; [reflexivity|]. split; [repeat split; repeat constructor|]. split; [discriminate|reflexivity].
Qed.

(** C46: [try_gzip] returns the hints exactly when those literals are found, and panics otherwise. *)
Theorem C46_try_gzip_exactly : forall level config preroll data codes refs hints,
  Config_gzip level = Ok config ->
  bytes_ok preroll -> bytes_ok data -> Forall code_ok codes -> encodes preroll data codes ->
  with_sixteen preroll data (match insert_only_below_length (cfg_wams config) with Some l => l | None => 65535 end) = Ok refs ->
  trace codes (mkTechnique config refs) = Ok hints ->
  literals_found preroll data hints codes /\ try_gzip level preroll data codes = Ok hints
  \/ ~ literals_found preroll data hints codes /\ exists m, try_gzip level preroll data codes = Panic m.
Proof. exact C46_lemma_exact. Qed.
Print Assumptions C46_try_gzip_exactly.

Example C46_exactly_case : try_gzip 6 [5; 5; 5] [5; 5; 5; 5; 5; 5; 5; 5] [Literal 5; Reference (mkRef 1 4)] = Ok [ActuallyLiteral; Correct]
  /\ (exists m, try_gzip 6 [9; 1; 2; 3] [1; 2; 3; 4; 6] [Literal 1; Literal 2; Literal 3; Literal 4; Literal 6] = Panic m).
Proof. split; [|eexists]; vm_compute; reflexivity. Qed.

(** C52: an accepted stream can be taken apart exactly when it decodes and every compressed block's "really a
    literal" literals are found, its preroll being the 32768 bytes before it. *)
Theorem C52_takes_apart_exactly : forall level bytes e blocks it dictionary, 1 <= level <= 9 ->
  bytes_ok bytes ->
  parse_all (mkSource bytes e) = (Ok blocks, it) ->
  cb_new = Ok dictionary ->
  ((exists parts, take_apart level blocks dictionary = Ok parts) <-> restorable level [] blocks).
Proof. exact C52_lemma_exact. Qed.
Print Assumptions C52_takes_apart_exactly.

(** A stream whose second block has such a literal and can be taken apart all the same. *)
Example C52_exactly_case : restorable 6 [] [FixedHuffman [Literal 5; Literal 5; Literal 5]; FixedHuffman [Literal 5; Reference (mkRef 1 4)]].
Proof.
  apply (res_cons 6 [] [5; 5; 5]); [vm_compute; reflexivity| |].
  - right. apply (found_by 6 _ _ _ [Correct; Correct; Correct]); [repeat constructor..|vm_compute; reflexivity|].
    intros [|[|[|[|i]]]] b E1 E2; discriminate.
  - apply (res_cons 6 _ [5; 5; 5; 5; 5; 5; 5; 5]); [vm_compute; reflexivity| |constructor].
    right. apply (found_by 6 _ _ _ [ActuallyLiteral; Correct]); [repeat constructor..|vm_compute; reflexivity|].
    intros [|[|[|i]]] b E1 E2; try discriminate; injection E2 as <-; reflexivity.
Qed.
