(** Properties C56 and C57: whole gzip files (lib/src/lib.rs test round_trip, rezippers/src/dump.rs). *)
From Verif Require Import Base M_bit M_lib M_gzip M_parse M_serialise M_dump Spec Clients Clients_file L_P_file.
Local Open Scope N_scope.

(** C56: a file is recreated exactly if and only if it is a gzip header, a stream in the serialiser's own form,
    and anything.  Missing from the full property: files whose stream is valid but not in that form. *)
Theorem C56_recreated_partial : forall file, bytes_ok file ->
  (recreate_file file = Ok file
   <-> exists header stream trailer blocks, file = header ++ stream ++ trailer
        /\ gzip_header header /\ canonical_stream 0 blocks (bits_of_bytes stream)).
Proof. exact C56_lemma. Qed.
Print Assumptions C56_recreated_partial.

(** C56: whenever it succeeds, header and trailing bytes are copied and only the stream may change. *)
Theorem C56_frame : forall file out, bytes_ok file -> recreate_file file = Ok out ->
  exists header stream trailer blocks stream', file = header ++ stream ++ trailer
    /\ gzip_header header /\ stream_bits 0 blocks (bits_of_bytes stream)
    /\ compress_all blocks = Ok stream' /\ out = header ++ stream' ++ trailer.
Proof. exact C56_lemma_frame. Qed.
Print Assumptions C56_frame.

(** C56 is false of the code for all valid files: a stored block has its length written backwards. *)
Theorem C56_recreated_refuted : exists file header stream trailer blocks, bytes_ok file
  /\ file = header ++ stream ++ trailer /\ gzip_header header /\ stream_bits 0 blocks (bits_of_bytes stream)
  /\ exists out, recreate_file file = Ok out /\ out <> file.
Proof. exact C56_lemma_refuted. Qed.
Print Assumptions C56_recreated_refuted.

(** A header with a file name, two blocks, a trailer. *)
Definition named_file : list N :=
  [31; 139; 8; 8; 0; 0; 0; 0; 0; 3; 97; 0] ++ [98; 100; 98; 102; 4; 35; 192; 216; 129; 24; 72; 113; 0; 0] ++ [1; 2; 3].
Example C56_case : bytes_ok named_file /\ recreate_file named_file = Ok named_file.
Proof. split; [repeat constructor|vm_compute; reflexivity]. Qed.

(** C57: dump succeeds exactly on a gzip header followed by a DEFLATE stream, whatever follows it, and then
    prints exactly the listing of its blocks. *)
Theorem C57_dump_lists : forall file e lines, bytes_ok file ->
  (dump_run (mkSource file e) = (lines, Ok tt)
   <-> exists header stream trailer blocks, file = header ++ stream ++ trailer
        /\ gzip_header header /\ stream_bits 0 blocks (bits_of_bytes stream) /\ lines = listing 0 blocks).
Proof. exact C57_lemma. Qed.
Print Assumptions C57_dump_lists.

(** C57: otherwise it returns the header's or the first broken block's error, and has printed the listing of
    exactly the blocks before that one. *)
Theorem C57_dump_failure : forall file e lines o, bytes_ok file ->
  dump_run (mkSource file e) = (lines, o) -> o <> Ok tt ->
  exists er, o = Err er
  /\ ((exists s, discard_header (mkSource file e) = (Err er, s)) /\ lines = []
      \/ exists header body blocks, discard_header (mkSource file e) = (Ok header, mkSource body e)
          /\ fst (call_next (S (List.length blocks)) (parse_deflate (mkSource body e))) = map (fun b => Ok (Some b)) blocks ++ [Err er]
          /\ lines = listing 0 blocks).
Proof. exact C57_lemma_failure. Qed.
Print Assumptions C57_dump_failure.

(** C57: the listing leaves nothing out but the contents of stored blocks. *)
Theorem C57_listing_complete : forall a b, listing 0 a = listing 0 b -> map outline_of a = map outline_of b.
Proof. exact C57_lemma_complete. Qed.
Print Assumptions C57_listing_complete.

Example C57_case :
  dump_run (mkSource named_file UnexpectedEof)
  = ([DBlock 0; DFixed; DLit 1; DLit 2; DLit 3; DLit 1; DBackref 3 5; DBlock 1; DFixed; DLit 7; DBackref 4 3; DBackref 7 3;
      DLit 8], Ok tt)
  /\ dump_run (mkSource (firstn 20 named_file) UnexpectedEof)
     = ([DBlock 0; DFixed; DLit 1; DLit 2; DLit 3; DLit 1; DBackref 3 5], Err (EIo UnexpectedEof)).
Proof. split; vm_compute; reflexivity. Qed.
