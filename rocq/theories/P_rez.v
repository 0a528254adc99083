(** Properties C47-C49: the cat and zero commands (rezippers/src/cat.rs, zero.rs). *)
From Verif Require Import Base M_bit M_lib M_circles M_gzip M_parse M_serialise M_rezippers Spec Clients L_P_rez L_P_zero.
Local Open Scope N_scope.

(** C47: cat succeeds exactly on a gzip header followed by a DEFLATE stream that decodes, whatever follows it,
    and then prints exactly the decoding. *)
Theorem C47_cat_decodes : forall file e data, bytes_ok file ->
  cat_run (mkSource file e) new_sink = (Ok tt, mkSink data None)
  <-> exists header used tail blocks, file = header ++ used ++ tail
        /\ gzip_header header
        /\ stream_bits 0 blocks (bits_of_bytes used)
        /\ encodes [] data (flat_map block_codes blocks).
Proof. exact C47_lemma. Qed.
Print Assumptions C47_cat_decodes.

(** C47: otherwise it returns an error, and what it printed is the output of some codes at the start of the
    stream; the error is the writer's, the parser's at the end of the blocks parsed, or a reference out of the
    window at the end of those codes. *)
Theorem C47_cat_failure : forall file e room o out, bytes_ok file ->
  cat_run (mkSource file e) (sink_with room) = (o, out) -> o <> Ok tt ->
  exists er, o = Err er
  /\ ((exists s, discard_header (mkSource file e) = (Err er, s)) /\ written out = []
      \/ exists header body blocks good more data,
          discard_header (mkSource file e) = (Ok header, mkSource body e)
          /\ fst (call_next (List.length blocks) (parse_deflate (mkSource body e))) = map (fun b => Ok (Some b)) blocks
          /\ flat_map block_codes blocks = good ++ more
          /\ encodes [] data good
          /\ written out = match room with None => data | Some k => firstn k data end
          /\ ((exists k, room = Some k /\ (k < List.length data)%nat /\ er = EIo OtherIo)
              \/ (more = [] /\ In (Err er) (fst (call_next (S (List.length blocks)) (parse_deflate (mkSource body e)))))
              \/ exists r more', more = Reference r :: more'
                   /\ ~ (1 <= r_dist r <= N.min 32768 (N.of_nat (List.length data))))).
Proof. exact C47_lemma_failure. Qed.
Print Assumptions C47_cat_failure.

(** A header, two blocks and trailing bytes; the second block refers into the first. *)
Definition cat_file : list N :=
  [31; 139; 8; 0; 0; 0; 0; 0; 0; 3] ++ [98; 100; 98; 102; 4; 35; 192; 216; 129; 24; 72; 113; 0; 0] ++ [1; 2; 3].
Example C47_case : bytes_ok cat_file
  /\ cat_run (mkSource cat_file UnexpectedEof) new_sink
     = (Ok tt, mkSink [1; 2; 3; 1; 2; 3; 1; 2; 3; 7; 1; 2; 3; 1; 2; 3; 8] None)
  /\ cat_run (mkSource (firstn 20 cat_file) UnexpectedEof) new_sink
     = (Err (EIo UnexpectedEof), mkSink [1; 2; 3; 1; 2; 3; 1; 2; 3] None).
Proof. split; [repeat constructor|]. split; vm_compute; reflexivity. Qed.

(** C48: the chunks of an input. *)
Theorem C48_chunks : forall bytes, bytes_ok bytes ->
  exists chunks, take_all (S (List.length bytes)) (map inl bytes) = Ok chunks
    /\ flat_map (fun c => c) chunks = bytes
    /\ Forall (fun c => c <> [] /\ N.of_nat (List.length c) <= 65536 /\ rsync_unbroken c) chunks
    /\ forall before c after, chunks = before ++ c :: after -> after <> [] ->
         8192 <= N.of_nat (List.length c) /\ (N.of_nat (List.length c) = 65536 \/ rsync_stop c).
Proof. exact C48_lemma. Qed.
Print Assumptions C48_chunks.

(** C48: one chunk, from an iterator that may also yield errors. *)
Theorem C48_one_chunk : forall from, Forall (fun x => match x with inl b => b < 256 | inr _ => True end) from ->
  match take_rsync from with
  | (Ok chunk, from') => from = map inl chunk ++ from' /\ N.of_nat (List.length chunk) <= 65536 /\ rsync_unbroken chunk
       /\ (from' = [] \/ 8192 <= N.of_nat (List.length chunk) /\ (N.of_nat (List.length chunk) = 65536 \/ rsync_stop chunk))
  | (Err er, from') => exists e part, er = EIo e /\ from = map inl part ++ inr e :: from'
       /\ N.of_nat (List.length part) < 65536 /\ rsync_unbroken part /\ (8192 <= N.of_nat (List.length part) -> ~ rsync_stop part)
  | _ => False
  end.
Proof. exact C48_lemma_step. Qed.
Print Assumptions C48_one_chunk.

(** Zeros stop at once; a short input is a single chunk. *)
Example C48_case : forall n, n = N.to_nat 8192 ->
  take_all 5 (map inl (repeat 0 n ++ repeat 0 n ++ [7; 8])) = Ok [repeat 0 n; repeat 0 n; [7; 8]].
Proof.
  intros n ->. assert (B : forall b, bytes_ok b -> bytes_ok (repeat 0 (N.to_nat 8192) ++ b)).
  { intros b H. apply Forall_app. split; [|exact H]. apply Forall_forall. intros x HX. apply repeat_spec in HX. subst x. reflexivity. }
  rewrite take_all_S, zeros_chunk by (try apply B; try discriminate; repeat constructor).
  rewrite take_all_S, zeros_chunk by (try discriminate; repeat constructor). vm_compute. reflexivity.
Qed.

(** C49: the output is the header, stored blocks that parse back to the chunks of the content whatever follows
    them, the CRC-32 and the length.  Missing from the full property: contents with a chunk of 65536 bytes, for
    which it is false (below). *)
Theorem C49_zero_partial : forall (inflate : source -> byte_iter) file e header body content chunks,
  discard_header (mkSource file e) = (Ok header, mkSource body e) ->
  inflate (mkSource body e) = map inl content -> bytes_ok content -> content <> [] ->
  take_all (S (List.length content)) (map inl content) = Ok chunks ->
  (forall c, In c chunks -> N.of_nat (List.length c) <> 65536) ->
  exists stream,
    zero_run inflate (mkSource file e) new_sink
    = (Ok tt, mkSink (header ++ stream ++ le32_bytes (crc32 content) ++ le32_bytes (N.of_nat (List.length content) mod 2 ^ 32)) None)
    /\ encodes [] content (flat_map block_codes (map Uncompressed chunks))
    /\ forall tail e', bytes_ok tail -> exists it,
         parse_all (mkSource (stream ++ tail) e') = (Ok (map Uncompressed chunks), it)
         /\ br_into_inner (bi_inner it) = Ok (mkSource tail e').
Proof. exact C49_lemma. Qed.
Print Assumptions C49_zero_partial.

(** C49: it never panics on non-empty content, and reports an error of the decompressor. *)
Theorem C49_zero_total : forall (inflate : source -> byte_iter) file e header body out,
  discard_header (mkSource file e) = (Ok header, mkSource body e) ->
  Forall (fun x => match x with inl b => b < 256 | inr _ => True end) (inflate (mkSource body e)) ->
  inflate (mkSource body e) <> [] ->
  returns (fst (zero_run inflate (mkSource file e) out))
  /\ ((exists x, In (inr x) (inflate (mkSource body e))) -> exists er, fst (zero_run inflate (mkSource file e) out) = Err er).
Proof. exact C49_lemma_total. Qed.
Print Assumptions C49_zero_total.

(** C49: with a writer that fails, what was written is a prefix of the output. *)
Theorem C49_zero_failing_writer : forall (inflate : source -> byte_iter) file e header body all k,
  discard_header (mkSource file e) = (Ok header, mkSource body e) ->
  Forall (fun x => match x with inl b => b < 256 | inr _ => True end) (inflate (mkSource body e)) ->
  zero_run inflate (mkSource file e) new_sink = (Ok tt, mkSink all None) ->
  let '(o, out) := zero_run inflate (mkSource file e) (sink_with (Some k)) in
  written out = firstn k all /\ o = if Nat.leb (List.length all) k then Ok tt else Err (EIo OtherIo).
Proof. exact C49_lemma_writer. Qed.
Print Assumptions C49_zero_failing_writer.

Example C49_case :
  let inflate (_ : source) : byte_iter := map inl [49; 50; 51; 52; 53; 54; 55; 56; 57] in
  discard_header (mkSource cat_file UnexpectedEof) = (Ok (firstn 10 cat_file), mkSource (skipn 10 cat_file) UnexpectedEof)
  /\ take_all 10 (map inl [49; 50; 51; 52; 53; 54; 55; 56; 57]) = Ok [[49; 50; 51; 52; 53; 54; 55; 56; 57]]
  /\ crc32 [49; 50; 51; 52; 53; 54; 55; 56; 57] = 3421780262
  /\ zero_run inflate (mkSource cat_file UnexpectedEof) new_sink
     = (Ok tt, mkSink (firstn 10 cat_file ++ [1; 9; 0; 246; 255; 49; 50; 51; 52; 53; 54; 55; 56; 57] ++ [38; 57; 244; 203; 9; 0; 0; 0]) None).
Proof. split; [vm_compute; reflexivity|]. split; [vm_compute; reflexivity|]. split; vm_compute; reflexivity. Qed.

(** C49 is false of the code: for some content of 65536 bytes the output parses to a single empty block. *)
Theorem C49_zero_refuted : exists content, bytes_ok content /\ content <> []
  /\ forall (inflate : source -> byte_iter) file e header body,
     discard_header (mkSource file e) = (Ok header, mkSource body e) ->
     inflate (mkSource body e) = map inl content ->
     exists stream, zero_run inflate (mkSource file e) new_sink = (Ok tt, mkSink (header ++ stream) None)
       /\ forall e', exists it, parse_all (mkSource stream e') = (Ok [Uncompressed []], it).
Proof. exact C49_lemma_refuted. Qed.
Print Assumptions C49_zero_refuted.
