(** Property C83: what the tracing example has printed when it stops (lib/examples/trace.rs). *)
From Verif Require Import Base M_bit M_lib M_circles M_gzip M_parse M_serialise M_all_refs M_technique M_trace M_example
  Spec Clients Clients_tracing Clients_restore Clients_listing L_P_parse L_P_cut.
Local Open Scope N_scope.

(** C83: for a file that decompresses, the example either prints the whole listing or panics after a listing cut at the
    first position it cannot show. *)
Theorem C83_stops : forall file e header stream trailer blocks, bytes_ok file ->
  file = header ++ stream ++ trailer -> gzip_header header -> stream_bits 0 blocks (bits_of_bytes stream) ->
  (exists data, encodes [] data (flat_map block_codes blocks)) ->
  (snd (example_run (mkSource file e)) = Ok tt /\ listing 0 [] blocks (fst (example_run (mkSource file e))))
  \/ ((exists m, snd (example_run (mkSource file e)) = Panic m) /\ cut_listing 0 [] blocks (fst (example_run (mkSource file e)))).
Proof. exact C83_lemma. Qed.
Print Assumptions C83_stops.

(** C83, for any file with a gzip header: the blocks that parse are listed, then the parser's result is the example's,
    unless the listing is cut before by a panic or by a distance before the start of the output. *)
Theorem C83_any_file : forall file e header body blocks last, bytes_ok file ->
  discard_header (mkSource file e) = (Ok header, mkSource body e) ->
  fst (call_next (S (List.length blocks)) (parse_deflate (mkSource body e))) = map (fun b => Ok (Some b)) blocks ++ [last] ->
  last = Ok None \/ (exists er, last = Err er) ->
  let '(lines, result) := example_run (mkSource file e) in
  listing 0 [] blocks lines /\ (last = Ok None /\ result = Ok tt \/ exists er, last = Err er /\ result = Err er)
  \/ (exists m, result = Panic m) /\ cut_listing 0 [] blocks lines
  \/ (exists er, result = Err er) /\ bad_listing 0 [] blocks lines.
Proof. exact C83_lemma_any. Qed.
Print Assumptions C83_any_file.

(** C83: it never runs forever. *)
Theorem C83_terminates : forall file e, bytes_ok file -> snd (example_run (mkSource file e)) <> Diverge.
Proof. exact C83_lemma_total. Qed.
Print Assumptions C83_terminates.

(** C83: what is printed for a prefix of a file is a prefix of what is printed for the whole. *)
Theorem C83_prefix : forall file more e e', bytes_ok file ->
  (exists l, fst (example_run (mkSource (file ++ more) e')) = fst (example_run (mkSource file e)) ++ l)
  /\ (snd (example_run (mkSource file e)) = Err (EIo e) \/ example_run (mkSource (file ++ more) e') = example_run (mkSource file e)).
Proof. exact C83_lemma_prefix. Qed.
Print Assumptions C83_prefix.

(** A stored block of nine bytes, then one literal: the preroll of nine is beyond the data of one by more than five. *)
Definition cut_header : list N := [31; 139; 8; 0; 0; 0; 0; 0; 0; 3].
Definition cut_stream : list N := [0; 9; 0; 246; 255; 1; 2; 3; 4; 5; 6; 7; 8; 9; 51; 0; 0].
Definition cut_blocks : list Block := [Uncompressed [1; 2; 3; 4; 5; 6; 7; 8; 9]; FixedHuffman [Literal 48]].
Example C83_case : bytes_ok (cut_header ++ cut_stream)
  /\ gzip_header cut_header /\ stream_bits 0 cut_blocks (bits_of_bytes cut_stream)
  /\ encodes [] [1; 2; 3; 4; 5; 6; 7; 8; 9; 48] (flat_map block_codes cut_blocks)
  /\ fst (example_run (mkSource (cut_header ++ cut_stream) UnexpectedEof)) = [XBlock 0; XStored 9; XBlock 1; XFixed; XSize "gzip --fast" 2]
  /\ (exists m, snd (example_run (mkSource (cut_header ++ cut_stream) UnexpectedEof)) = Panic m)
  /\ fst (example_run (mkSource (cut_header ++ [0; 9; 0; 246; 255; 1; 2; 3; 4; 5; 6; 7; 8; 9; 51]) UnexpectedEof)) = [XBlock 0; XStored 9].
Proof.
  split; [repeat constructor|]. split.
  { exists 0, [0; 0; 0; 0; 0; 3], [], [], [], []. repeat split. }
  split.
  { destruct (proj1 (C23_lemma cut_stream UnexpectedEof cut_blocks [] ltac:(repeat constructor))) as (used & E & H).
    - eexists. split; vm_compute; reflexivity.
    - rewrite app_nil_r in E. rewrite E. exact H. }
  split; [vm_compute; reflexivity|].
  split; [vm_compute; reflexivity|].
  split; [eexists; vm_compute; reflexivity|]. vm_compute. reflexivity.
Qed.
