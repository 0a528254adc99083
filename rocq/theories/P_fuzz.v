(** Properties C65 and C68, exactly (lib/src/tracer.rs, lib/fuzz/fuzz_targets). *)
From Verif Require Import Base M_bit M_lib M_parse M_all_refs M_technique M_trace M_example M_fuzz
  Spec Clients Spec_encoder Clients_encoder Clients_tracing Clients_restore Clients_hints L_P_parse L_P_fuzz L_P_accept.
Local Open Scope N_scope.

(** C65: with no preroll [try_gzip] accepts exactly the codes that fit the data. *)
Theorem C65_accepts_exactly : forall level data codes, 1 <= level <= 9 -> bytes_ok data -> Forall code_ok codes ->
  ((exists hints, try_gzip level [] data codes = Ok hints) <-> fits data 0 codes).
Proof. exact C65_lemma_exact. Qed.
Print Assumptions C65_accepts_exactly.

Example C65_exactly_case : bytes_ok [1; 2; 1; 2; 1] /\ Forall code_ok [Literal 1; Literal 2; Reference (mkRef 2 0)]
  /\ fits [1; 2; 1; 2; 1] 0 [Literal 1; Literal 2; Reference (mkRef 2 0)]
  /\ try_gzip 1 [] [1; 2; 1; 2; 1] [Literal 1; Literal 2; Reference (mkRef 2 0)] = Ok [Correct; Correct; Actually (mkRef 2 0)].
Proof.
  split; [repeat constructor|]. split; [repeat constructor; cbn; lia|]. split; [vm_compute; repeat (split; [first [reflexivity|lia]|]); reflexivity|]. vm_compute. reflexivity.
Qed.

(** C65: with a preroll it accepts exactly the codes that go up to the end and whose wrongly guessed literals are what
    the data has that many bytes too far on. *)
Theorem C65_accepts_preroll : forall level preroll data codes, 1 <= level <= 9 -> bytes_ok preroll -> bytes_ok data -> Forall code_ok codes ->
  ((exists hints, try_gzip level preroll data codes = Ok hints)
   <-> covers (List.length (preroll ++ data)) (List.length preroll) codes /\ found_at_level level preroll data codes).
Proof. exact C65_lemma_preroll. Qed.
Print Assumptions C65_accepts_preroll.

(** So it accepts codes that decompress to 2 3 3 as codes for 1 2 3. *)
Example C65_preroll_case : try_gzip 1 [9] [1; 2; 3] [Literal 2; Literal 3; Literal 3] = Ok [ActuallyLiteral; ActuallyLiteral; Correct]
  /\ covers 4 1 [Literal 2; Literal 3; Literal 3] /\ encodes [9] [2; 3; 3] [Literal 2; Literal 3; Literal 3].
Proof. split; [vm_compute; reflexivity|]. split; [|vm_compute; reflexivity]. cbn [covers code_bytes Nat.add]. repeat split; repeat constructor. Qed.

(** C68: for the file of any encoder (a header of ten bytes, a DEFLATE stream, a trailer of eight bytes) the target
    ends normally exactly if the data is empty, or the first block is stored, or the first block's codes are those of
    the greedy level 1 encoder for all the data. *)
Theorem C68_trace_gzip_1_partial : forall data header stream trailer b blocks r, bytes_ok data -> bytes_ok stream ->
  List.length header = 10%nat -> List.length trailer = 8%nat -> stream_bits 0 (b :: blocks) (bits_of_bytes stream) ->
  (fuzz_trace_gzip_1 data (header ++ stream ++ trailer) = Ok r
   <-> (data = [] /\ r = FEmpty)
       \/ (data <> [] /\ (exists d, b = Uncompressed d) /\ r = FStored)
       \/ (data <> [] /\ (forall d, b <> Uncompressed d) /\ gzip_greedy data 1 0 (block_codes b) /\ r = FSuccess)).
Proof. exact C68_lemma. Qed.
Print Assumptions C68_trace_gzip_1_partial.

(** C68: likewise for the other target, which also ends normally when gzip wrote another body than flate2. *)
Theorem C68_exec_gzip_partial : forall data compressed header body trailer b blocks r, bytes_ok data -> bytes_ok compressed ->
  List.length header = 10%nat -> List.length trailer = 8%nat -> stream_bits 0 (b :: blocks) (bits_of_bytes compressed) ->
  (fuzz_exec_gzip data compressed (header ++ body ++ trailer) = Ok r
   <-> (data = [] /\ r = FEmpty)
       \/ (data <> [] /\ (exists d, b = Uncompressed d) /\ r = FStored)
       \/ (data <> [] /\ (forall d, b <> Uncompressed d) /\ gzip_greedy data 1 0 (block_codes b) /\ r = FSuccess)
       \/ (data <> [] /\ (forall d, b <> Uncompressed d) /\ ~ gzip_greedy data 1 0 (block_codes b)
           /\ fits data 0 (block_codes b) /\ compressed <> body /\ r = FDifferent)).
Proof. exact C68_lemma_exec. Qed.
Print Assumptions C68_exec_gzip_partial.

(** A file of one block, with the codes of the greedy encoder. *)
Example C68_case : bytes_ok [1; 2; 3] /\ stream_bits 0 [FixedHuffman [Literal 1; Literal 2; Literal 3]] (bits_of_bytes [99; 100; 98; 6; 0])
  /\ fuzz_trace_gzip_1 [1; 2; 3] ([31; 139; 8; 0; 0; 0; 0; 0; 4; 3] ++ [99; 100; 98; 6; 0] ++ [1; 2; 3; 4; 3; 0; 0; 0]) = Ok FSuccess
  /\ fuzz_exec_gzip [1; 2; 4] [99; 100; 98; 6; 0] ([31; 139; 8; 0; 0; 0; 0; 0; 4; 3] ++ [99] ++ [1; 2; 3; 4; 3; 0; 0; 0]) = Panic "assert_eq!(codes, restored.as_slice())".
Proof.
  split; [repeat constructor|]. split; [|split; vm_compute; reflexivity].
  destruct (proj1 (C23_lemma [99; 100; 98; 6; 0] UnexpectedEof [FixedHuffman [Literal 1; Literal 2; Literal 3]] [] ltac:(repeat constructor))) as (used & E & H).
  - eexists. split; vm_compute; reflexivity.
  - rewrite app_nil_r in E. rewrite E. exact H.
Qed.

(** C68 fails: a correctly predicted file of two blocks makes the target panic. *)
Theorem C68_false_alarm_refuted : exists data header stream trailer blocks m, bytes_ok data /\ bytes_ok stream
  /\ List.length header = 10%nat /\ List.length trailer = 8%nat /\ stream_bits 0 blocks (bits_of_bytes stream)
  /\ encodes [] data (flat_map block_codes blocks) /\ gzip_greedy data 1 0 (flat_map block_codes blocks)
  /\ fuzz_trace_gzip_1 data (header ++ stream ++ trailer) = Panic m.
Proof. exact C68_lemma_refuted. Qed.
Print Assumptions C68_false_alarm_refuted.

(** C68: whatever the bytes, each target ends or panics. *)
Theorem C68_always_ends : forall data compressed gzip_file, bytes_ok data -> bytes_ok compressed -> bytes_ok gzip_file ->
  ((exists r, fuzz_trace_gzip_1 data gzip_file = Ok r) \/ (exists m, fuzz_trace_gzip_1 data gzip_file = Panic m))
  /\ ((exists r, fuzz_exec_gzip data compressed gzip_file = Ok r) \/ (exists m, fuzz_exec_gzip data compressed gzip_file = Panic m)).
Proof. exact C68_lemma_ends. Qed.
Print Assumptions C68_always_ends.

Example C68_ends_case : bytes_ok [1; 2; 3] /\ bytes_ok [99; 100; 98; 6; 0] /\ bytes_ok [31; 139]
  /\ fuzz_trace_gzip_1 [1; 2; 3] [31; 139] = Panic "attempt to subtract with overflow".
Proof. split; [repeat constructor|]. split; [repeat constructor|]. split; [repeat constructor|]. vm_compute. reflexivity. Qed.
