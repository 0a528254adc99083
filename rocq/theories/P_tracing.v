(** Properties C65 and C66: what tracing accepts, and the tracing example (lib/examples/trace.rs). *)
From Verif Require Import Base M_bit M_lib M_circles M_gzip M_parse M_serialise M_all_refs M_technique M_trace M_example
  Spec Clients Clients_tracing L_P_tracing.
Local Open Scope N_scope.

(** C65: codes that [try_gzip] accepts have the data's own bytes as literals and stop where the data ends.
    Missing from the full property: that references copy the data's own bytes too (refuted below). *)
Theorem C65_accepts_partial : forall level data codes hints, bytes_ok data ->
  try_gzip level [] data codes = Ok hints -> fits data 0 codes.
Proof. exact C65_lemma. Qed.
Print Assumptions C65_accepts_partial.

(** C65: whatever [try_gzip] answers, with any preroll and any codes, serialises to bytes that restore exactly
    the given codes. *)
Theorem C65_restores : forall level preroll data codes hints,
  try_gzip level preroll data codes = Ok hints ->
  exists bytes, st_write hints = Ok bytes /\ bytes_to_codes level preroll data bytes = Ok codes.
Proof. exact C65_lemma_restores. Qed.
Print Assumptions C65_restores.

(** C65 is false of the code in full: a reference to the wrong bytes is accepted. *)
Theorem C65_accepts_refuted : exists data codes hints, bytes_ok data /\ Forall code_ok codes
  /\ try_gzip 1 [] data codes = Ok hints /\ ~ encodes [] data codes.
Proof. exact C65_lemma_refuted. Qed.
Print Assumptions C65_accepts_refuted.

Example C65_case : exists hints,
  try_gzip 6 [] [1; 2; 3; 4; 1; 2; 3; 4; 5] [Literal 1; Literal 2; Literal 3; Literal 4; Reference (mkRef 4 1); Literal 5] = Ok hints.
Proof. eexists. vm_compute. reflexivity. Qed.

(** C66: the example prints its listing for every gzip file that decompresses and has no compressed block after
    other output.  Missing from the full property: files with such a block (refuted below). *)
Theorem C66_example_runs_partial : forall file e header stream trailer blocks, bytes_ok file ->
  file = header ++ stream ++ trailer -> gzip_header header -> stream_bits 0 blocks (bits_of_bytes stream) ->
  (exists data, encodes [] data (flat_map block_codes blocks)) -> first_compressed blocks ->
  exists lines, example_run (mkSource file e) = (lines, Ok tt).
Proof. exact C66_lemma. Qed.
Print Assumptions C66_example_runs_partial.

(** C66 is false of the code in full: a valid file of two blocks makes the example panic. *)
Theorem C66_example_runs_refuted : exists file header stream trailer blocks m, bytes_ok file
  /\ file = header ++ stream ++ trailer /\ gzip_header header /\ stream_bits 0 blocks (bits_of_bytes stream)
  /\ (exists data, encodes [] data (flat_map block_codes blocks))
  /\ snd (example_run (mkSource file UnexpectedEof)) = Panic m.
Proof. exact C66_lemma_refuted. Qed.
Print Assumptions C66_example_runs_refuted.

(** A file name, the text abcabcabcd in a fixed block, a trailer. *)
Definition traced_file : list N :=
  [31; 139; 8; 8; 0; 0; 0; 0; 0; 3; 97; 0] ++ [75; 76; 74; 78; 4; 163; 20; 0] ++ [1; 2; 3].
Example C66_case : exists lines, example_run (mkSource traced_file UnexpectedEof) = (XBlock 0 :: XFixed :: lines, Ok tt).
Proof. eexists. vm_compute. reflexivity. Qed.
