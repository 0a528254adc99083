(** Properties C07, C16-C23, C54: parsing and re-serialising DEFLATE streams (lib/src/parse.rs,
    lib/src/serialise.rs, lib/src/bit.rs). *)
From Verif Require Import Base M_bit M_lib M_code_tree M_huffman M_parse M_serialise Spec Clients L_P_parse.
Local Open Scope N_scope.
Local Open Scope model_scope.

(** C07 is false: the length is written big-endian and read little-endian. *)
Theorem C07_stored_round_trip_refuted : exists data, bytes_ok data /\ N.of_nat (List.length data) < 65536
  /\ exists bytes, compress_all [Uncompressed data] = Ok bytes
     /\ forall it, parse_all (mkSource bytes UnexpectedEof) <> (Ok [Uncompressed data], it).
Proof. exact C07_refuted_lemma. Qed.
Print Assumptions C07_stored_round_trip_refuted.

(** C07, exact part: a stored block written on its own parses back, consuming everything, exactly when its
    length reads the same in both byte orders.  Missing: every other length (false of the code). *)
Theorem C07_stored_round_trip_partial : forall data e, bytes_ok data -> N.of_nat (List.length data) < 65536 ->
  exists bytes, compress_all [Uncompressed data] = Ok bytes
    /\ ((exists it, parse_all (mkSource bytes e) = (Ok [Uncompressed data], it)
                    /\ br_into_inner (bi_inner it) = Ok (mkSource [] e))
        <-> symmetric_length data).
Proof. exact C07_partial_lemma. Qed.
Print Assumptions C07_stored_round_trip_partial.

Example C07_case : bytes_ok (repeat 9 257) /\ N.of_nat (List.length (repeat 9 257)) < 65536
  /\ symmetric_length (repeat 9 257) /\ ~ symmetric_length [7].
Proof.
  split; [apply Forall_forall; intros x H; apply repeat_spec in H; now subst|]. split; [vm_compute; reflexivity|].
  split; [vm_compute; reflexivity|]. vm_compute. discriminate.
Qed.

(** C16: parsing any byte stream (with any I/O error behind it) terminates without a panic; so does any
    number of calls of [next], also after errors. *)
Theorem C16_parse_total : forall bytes e, bytes_ok bytes ->
  returns (fst (parse_all (mkSource bytes e)))
  /\ forall n, Forall returns (fst (call_next n (parse_deflate (mkSource bytes e)))).
Proof. exact C16_lemma. Qed.
Print Assumptions C16_parse_total.

(** A small dynamic block that zlib could not have produced, with length 258 written as symbol 284. *)
Definition odd_block : list N := [229; 192; 129; 0; 0; 0; 0; 0; 144; 255; 107; 33; 252; 0].
(** Two blocks: a stored one of no bytes and a fixed one with a back-reference. *)
Definition two_blocks : list N := [0; 0; 0; 255; 255; 75; 132; 3; 0].

Example C16_case : bytes_ok odd_block /\ bytes_ok [7; 255]
  /\ fst (parse_all (mkSource [7; 255] UnexpectedEof)) = Err (EMsg "reserved block type")
  /\ exists blocks it, parse_all (mkSource two_blocks UnexpectedEof) = (Ok blocks, it) /\ List.length blocks = 2%nat.
Proof.
  split; [repeat constructor|]. split; [repeat constructor|]. split; [vm_compute; reflexivity|].
  do 2 eexists. split; [vm_compute; reflexivity|reflexivity].
Qed.

(** C17: everything a parsed block contains is in range. *)
Theorem C17_parsed_codes_in_range : forall bytes e n b, bytes_ok bytes ->
  In (Ok (Some b)) (fst (call_next n (parse_deflate (mkSource bytes e)))) ->
  match b with
  | Uncompressed data => bytes_ok data
  | FixedHuffman codes | DynamicHuffman _ codes => Forall code_ok codes
  end.
Proof. exact C17_lemma. Qed.
Print Assumptions C17_parsed_codes_in_range.

Example C17_case : bytes_ok two_blocks
  /\ In (Ok (Some (FixedHuffman [Literal 97; Reference (mkRef 1 6)])))
        (fst (call_next 3 (parse_deflate (mkSource two_blocks UnexpectedEof)))).
Proof. split; [repeat constructor|]. vm_compute. right. left. reflexivity. Qed.

(** C18 is false for stored blocks (see C07). *)
Theorem C18_serialise_parse_refuted : exists blocks, blocks <> [] /\ Forall block_ok blocks
  /\ forall bytes, compress_all blocks = Ok bytes -> forall it, parse_all (mkSource bytes UnexpectedEof) <> (Ok blocks, it).
Proof. exact C18_refuted_lemma. Qed.
Print Assumptions C18_serialise_parse_refuted.

(** C18, proved part: every list of well-formed blocks whose stored blocks have a byte-symmetric length.
    Missing: stored blocks of other lengths (false of the code). *)
Theorem C18_serialise_parse_partial : forall blocks e, blocks <> [] -> Forall block_ok blocks ->
  (forall data, In (Uncompressed data) blocks -> symmetric_length data) ->
  exists bytes it, compress_all blocks = Ok bytes
    /\ parse_all (mkSource bytes e) = (Ok blocks, it)
    /\ br_into_inner (bi_inner it) = Ok (mkSource [] e).
Proof. exact C18_partial_lemma. Qed.
Print Assumptions C18_serialise_parse_partial.

Example C18_case : let blocks := [Uncompressed []; FixedHuffman [Literal 97; Reference (mkRef 1 6)]] in
  blocks <> [] /\ Forall block_ok blocks /\ (forall data, In (Uncompressed data) blocks -> symmetric_length data)
  /\ compress_all blocks = Ok two_blocks.
Proof.
  split; [discriminate|]. split; [|split].
  - constructor; [split; [constructor|reflexivity]|]. constructor; [|constructor].
    constructor; [reflexivity|]. constructor; [|constructor]. unfold code_ok, ref_ok. cbn [r_dist r_run_minus_3]. lia.
  - intros data [E|[E|[]]]; [injection E as <-; reflexivity|discriminate].
  - vm_compute. reflexivity.
Qed.

(** C19 is false even without stored blocks: length 258 can be written with symbol 284. *)
Theorem C19_parse_serialise_refuted : exists bytes blocks it, bytes_ok bytes
  /\ parse_all (mkSource bytes UnexpectedEof) = (Ok blocks, it)
  /\ br_into_inner (bi_inner it) = Ok (mkSource [] UnexpectedEof)
  /\ (forall data, ~ In (Uncompressed data) blocks)
  /\ exists other, compress_all blocks = Ok other /\ other <> bytes.
Proof. exact C19_refuted_lemma. Qed.
Print Assumptions C19_parse_serialise_refuted.

(** C19, exact part: re-serialising reproduces the consumed bytes exactly when the stream is canonical:
    every length 258 uses symbol 285 and stored lengths are byte-symmetric. *)
Theorem C19_parse_serialise_partial : forall used tail e blocks it, bytes_ok (used ++ tail) ->
  parse_all (mkSource (used ++ tail) e) = (Ok blocks, it) ->
  br_into_inner (bi_inner it) = Ok (mkSource tail e) ->
  (compress_all blocks = Ok used <-> canonical_stream 0 blocks (bits_of_bytes used)).
Proof. exact C19_exact_lemma. Qed.
Print Assumptions C19_parse_serialise_partial.

Example C19_case : exists blocks it, bytes_ok (two_blocks ++ [1; 2])
  /\ parse_all (mkSource (two_blocks ++ [1; 2]) UnexpectedEof) = (Ok blocks, it)
  /\ br_into_inner (bi_inner it) = Ok (mkSource [1; 2] UnexpectedEof) /\ compress_all blocks = Ok two_blocks.
Proof.
  do 2 eexists. split; [repeat constructor|]. split; [vm_compute; reflexivity|].
  split; [vm_compute; reflexivity|]. vm_compute. reflexivity.
Qed.

(** C20 is false: a length 258 read as symbol 284 under a table that has no symbol 285. *)
Theorem C20_reserialise_refuted : exists bytes b, bytes_ok bytes
  /\ In (Ok (Some b)) (fst (call_next 1 (parse_deflate (mkSource bytes UnexpectedEof))))
  /\ exists msg, fst (compressed_block b (bw_new new_sink)) = Panic msg.
Proof. exact C20_refuted_lemma. Qed.
Print Assumptions C20_reserialise_refuted.

(** C20, exact part: that is the only way a parsed block can fail to be written. *)
Theorem C20_reserialise_partial : forall bytes e n b, bytes_ok bytes ->
  In (Ok (Some b)) (fst (call_next n (parse_deflate (mkSource bytes e)))) ->
  fst (compressed_block b (bw_new new_sink)) = Ok tt
  \/ (exists msg, fst (compressed_block b (bw_new new_sink)) = Panic msg)
     /\ exists ll dl hdr cs r, b = DynamicHuffman (bitvec_of hdr) cs /\ dyn_header ll dl hdr
          /\ In (Reference r) cs /\ ref_len r = 258 /\ rfc_code ll 285 = None.
Proof. exact C20_partial_lemma. Qed.
Print Assumptions C20_reserialise_partial.

Example C20_case : bytes_ok two_blocks
  /\ In (Ok (Some (FixedHuffman [Literal 97; Reference (mkRef 1 6)])))
        (fst (call_next 3 (parse_deflate (mkSource two_blocks UnexpectedEof)))).
Proof. split; [repeat constructor|]. vm_compute. right. left. reflexivity. Qed.

(** C21: what follows the final block does not matter. *)
Theorem C21_trailing_bytes : forall used tail e blocks it other e', bytes_ok (used ++ tail) -> bytes_ok other ->
  parse_all (mkSource (used ++ tail) e) = (Ok blocks, it) ->
  br_into_inner (bi_inner it) = Ok (mkSource tail e) ->
  exists it', parse_all (mkSource (used ++ other) e') = (Ok blocks, it')
              /\ br_into_inner (bi_inner it') = Ok (mkSource other e').
Proof. exact C21_lemma. Qed.
Print Assumptions C21_trailing_bytes.

Example C21_case : exists blocks it, bytes_ok (two_blocks ++ [1; 2])
  /\ parse_all (mkSource (two_blocks ++ [1; 2]) UnexpectedEof) = (Ok blocks, it)
  /\ br_into_inner (bi_inner it) = Ok (mkSource [1; 2] UnexpectedEof).
Proof. do 2 eexists. split; [repeat constructor|]. split; vm_compute; reflexivity. Qed.

(** C22: every strict prefix of the consumed bytes is rejected. *)
Theorem C22_truncation_detected : forall used tail e blocks it cut e', bytes_ok (used ++ tail) ->
  parse_all (mkSource (used ++ tail) e) = (Ok blocks, it) ->
  br_into_inner (bi_inner it) = Ok (mkSource tail e) ->
  (cut < List.length used)%nat ->
  exists er, fst (parse_all (mkSource (firstn cut used) e')) = Err er.
Proof. exact C22_lemma. Qed.
Print Assumptions C22_truncation_detected.

Example C22_case : (4 < List.length two_blocks)%nat
  /\ fst (parse_all (mkSource (firstn 4 two_blocks) UnexpectedEof)) = Err (EIo UnexpectedEof)
  /\ fst (parse_all (mkSource (firstn 8 two_blocks) UnexpectedEof)) = Err (EIo UnexpectedEof).
Proof. split; [cbn; lia|]. split; vm_compute; reflexivity. Qed.

(** C23: the parser accepts exactly the grammar, yields exactly its blocks and leaves exactly the rest. *)
Theorem C23_grammar : forall bytes e blocks tail, bytes_ok bytes ->
  (exists it, parse_all (mkSource bytes e) = (Ok blocks, it)
              /\ br_into_inner (bi_inner it) = Ok (mkSource tail e))
  <-> exists used, bytes = used ++ tail /\ stream_bits 0 blocks (bits_of_bytes used).
Proof. exact C23_lemma. Qed.
Print Assumptions C23_grammar.

(** C23: whenever parsing succeeds the reader is at a byte boundary and hands the rest back. *)
Theorem C23_ends_on_a_byte : forall bytes e blocks it, bytes_ok bytes ->
  parse_all (mkSource bytes e) = (Ok blocks, it) ->
  exists tail, br_into_inner (bi_inner it) = Ok (mkSource tail e).
Proof. exact C23_lemma_ends. Qed.
Print Assumptions C23_ends_on_a_byte.

Example C23_case : exists blocks it, bytes_ok (two_blocks ++ [1; 2])
  /\ parse_all (mkSource (two_blocks ++ [1; 2]) UnexpectedEof) = (Ok blocks, it)
  /\ br_into_inner (bi_inner it) = Ok (mkSource [1; 2] UnexpectedEof).
Proof. do 2 eexists. split; [repeat constructor|]. split; vm_compute; reflexivity. Qed.

(** C54: once ended, always ended. *)
Theorem C54_stays_ended : forall bytes e n it m, bytes_ok bytes ->
  bi_next (snd (call_next n (parse_deflate (mkSource bytes e)))) = (Ok None, it) ->
  fst (call_next m it) = repeat (Ok None) m.
Proof. exact C54_lemma_none. Qed.
Print Assumptions C54_stays_ended.

(** C54: after an I/O error no call yields a block any more. *)
Theorem C54_io_error_is_final : forall bytes e n it x m, bytes_ok bytes ->
  bi_next (snd (call_next n (parse_deflate (mkSource bytes e)))) = (Err (EIo x), it) ->
  x = e /\ (fst (call_next m it) = repeat (Err (EIo e)) m \/ fst (call_next m it) = repeat (Ok None) m).
Proof. exact C54_lemma_io. Qed.
Print Assumptions C54_io_error_is_final.

Example C54_case : bytes_ok two_blocks
  /\ (exists it, bi_next (snd (call_next 2 (parse_deflate (mkSource two_blocks UnexpectedEof)))) = (Ok None, it))
  /\ exists it, bi_next (snd (call_next 1 (parse_deflate (mkSource (firstn 7 two_blocks) UnexpectedEof)))) = (Err (EIo UnexpectedEof), it).
Proof. split; [repeat constructor|]. split; eexists; vm_compute; reflexivity. Qed.
