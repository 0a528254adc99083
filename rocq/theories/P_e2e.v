(** Property C52: recreating a DEFLATE stream from its data, its framing and its serialised traces. *)
From Verif Require Import Base M_bit M_lib M_circles M_parse M_serialise M_all_refs M_technique M_trace Spec Clients L_P_e2e.
Local Open Scope N_scope.

(** C52: whatever a stream is taken apart into, the parts alone recreate the blocks, and for canonical streams
    (C19) the bytes; the data kept is the decompressed data.  Missing from the full property: taking the stream
    apart may panic (below), and streams that are not canonical come back as other bytes (C19). *)
Theorem C52_end_to_end_partial : forall level used tail e blocks it dictionary parts,
  bytes_ok (used ++ tail) ->
  parse_all (mkSource (used ++ tail) e) = (Ok blocks, it) ->
  br_into_inner (bi_inner it) = Ok (mkSource tail e) ->
  cb_new = Ok dictionary ->
  take_apart level blocks dictionary = Ok parts ->
  put_together level parts dictionary = Ok blocks
  /\ encodes [] (flat_map part_data parts) (flat_map block_codes blocks)
  /\ (canonical_stream 0 blocks (bits_of_bytes used) -> compress_all blocks = Ok used).
Proof. exact C52_lemma. Qed.
Print Assumptions C52_end_to_end_partial.

(** C52: taking apart succeeds for every accepted stream that decodes and needs no "really a literal" hint in a
    block that follows other output. *)
Theorem C52_takes_apart_partial : forall level bytes e blocks it dictionary, 1 <= level <= 9 ->
  bytes_ok bytes ->
  parse_all (mkSource bytes e) = (Ok blocks, it) ->
  traceable level [] blocks ->
  cb_new = Ok dictionary ->
  exists parts, take_apart level blocks dictionary = Ok parts.
Proof. exact C52_lemma_traceable. Qed.
Print Assumptions C52_takes_apart_partial.

(** Two compressed blocks; the second refers back into the first, and its guesses are escaped. *)
Example C52_case : exists bytes blocks it dictionary parts,
  blocks = [FixedHuffman [Literal 1; Literal 2; Literal 3; Literal 1; Reference (mkRef 3 2)];
            FixedHuffman [Literal 7; Reference (mkRef 4 0); Reference (mkRef 7 0); Literal 8]]
  /\ bytes_ok bytes /\ parse_all (mkSource bytes UnexpectedEof) = (Ok blocks, it)
  /\ br_into_inner (bi_inner it) = Ok (mkSource [] UnexpectedEof)
  /\ cb_new = Ok dictionary /\ take_apart 6 blocks dictionary = Ok parts
  /\ flat_map part_data parts = [1; 2; 3; 1; 2; 3; 1; 2; 3; 7; 1; 2; 3; 1; 2; 3; 8]
  /\ compress_all blocks = Ok bytes.
Proof.
  exists [98; 100; 98; 102; 4; 35; 192; 216; 129; 24; 72; 113; 0; 0]. eexists. eexists. eexists.
  exists [PFixed [1; 2; 3; 1; 2; 3; 1; 2; 3] [5; 128];
          PFixed [7; 1; 2; 3; 1; 2; 3; 8] [1; 128; 4; 0; 0; 7; 0; 0; 1; 128]].
  split; [reflexivity|]. split; [repeat constructor|]. split; [vm_compute; reflexivity|]. split; [vm_compute; reflexivity|].
  split; [reflexivity|]. split; [vm_compute; reflexivity|]. split; vm_compute; reflexivity.
Qed.

Example C52_case_traceable : traceable 6 []
  [FixedHuffman [Literal 1; Literal 2; Literal 3; Literal 1; Reference (mkRef 3 2)];
   FixedHuffman [Literal 7; Reference (mkRef 4 0); Reference (mkRef 7 0); Literal 8]].
Proof.
  apply (tr_cons 6 [] [1; 2; 3; 1; 2; 3; 1; 2; 3]); [vm_compute; reflexivity|now left|].
  apply (tr_cons 6 _ [7; 1; 2; 3; 1; 2; 3; 8]); [vm_compute; reflexivity| |constructor].
  right. right. intros config refs hints EC EW ET HI. vm_compute in EC. injection EC as <-.
  vm_compute in EW. injection EW as <-. vm_compute in ET. injection ET as <-.
  repeat (destruct HI as [HI|HI]; [discriminate|]). exact HI.
Qed.

(** C52 is false of the code: a stream of two fixed Huffman blocks, which re-serialises exactly, cannot be
    traced at any level. *)
Theorem C52_end_to_end_refuted : exists bytes blocks it dictionary, bytes_ok bytes
  /\ parse_all (mkSource bytes UnexpectedEof) = (Ok blocks, it)
  /\ br_into_inner (bi_inner it) = Ok (mkSource [] UnexpectedEof)
  /\ compress_all blocks = Ok bytes
  /\ cb_new = Ok dictionary
  /\ forall level, 1 <= level <= 9 -> take_apart level blocks dictionary = Panic "index out of bounds".
Proof. exact C52_lemma_refuted. Qed.
Print Assumptions C52_end_to_end_refuted.
