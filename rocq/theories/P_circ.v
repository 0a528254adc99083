(** Properties C24-C29, C55: the window buffer and decompression (lib/src/circles.rs, lib/src/serialise.rs). *)
From Verif Require Import Base M_bit M_lib M_circles M_parse M_serialise Spec Clients L_P_circ.
Local Open Scope N_scope.
Local Open Scope model_scope.

(** C24: after any history of pushes and extends. *)
Theorem C24_window_holds_last_bytes : forall cap ops, 0 < cap < 65536 ->
  exists b0 b, cb_with_capacity cap = Ok b0 /\ run_circ_ops ops b0 = Ok b
    /\ cb_len b = N.min cap (N.of_nat (List.length (pushed ops)))
    /\ cb_capacity b = cap
    /\ forall debug d, 1 <= d <= cb_len b ->
         cb_get_at_dist debug b d = Ok (nth (N.to_nat d - 1) (rev (pushed ops)) 0).
Proof. exact C24_lemma. Qed.
Print Assumptions C24_window_holds_last_bytes.

Example C24_case : exists b0 b, cb_with_capacity 6 = Ok b0
  /\ run_circ_ops [CPush 1; CExtend [2; 3; 4; 5; 6; 7]; CPush 8] b0 = Ok b
  /\ cb_len b = 6 /\ cb_get_at_dist true b 6 = Ok 3 /\ cb_get_at_dist true b 1 = Ok 8.
Proof.
  do 2 eexists. split; [vm_compute; reflexivity|]. split; [vm_compute; reflexivity|].
  split; [vm_compute; reflexivity|]. split; vm_compute; reflexivity.
Qed.

(** C25 is false at the largest capacity: with overflow checks a full 65535-byte window panics, without
    them the snapshot is empty. *)
Theorem C25_snapshot_refuted : exists cap hist b, 0 < cap < 65536 /\ window_after cap hist b
  /\ (exists msg, cb_vec true b = Panic msg)
  /\ cb_len b = 65535 /\ cb_vec false b = Ok [].
Proof. exact C25_refuted_lemma. Qed.
Print Assumptions C25_snapshot_refuted.

(** C25, proved part: every window that does not hold 65535 bytes.  Missing: only that one case. *)
Theorem C25_snapshot_partial : forall cap hist b debug, cap < 65536 -> window_after cap hist b -> cb_len b <> 65535 ->
  cb_vec debug b = Ok (lastn (N.to_nat (cb_len b)) hist).
Proof. exact C25_partial_lemma. Qed.
Print Assumptions C25_snapshot_partial.

(** C25, exactly when it holds: a snapshot is the last [cap] bytes of the history unless the window has the
    largest capacity and is full. *)
Theorem C25_snapshot_exactly : forall cap hist b debug, 0 < cap < 65536 -> window_after cap hist b ->
  (cb_vec debug b = Ok (lastn (N.to_nat cap) hist) <-> cb_len b <> 65535)
  /\ (cb_len b = 65535 <-> cap = 65535 /\ (N.to_nat 65535 <= List.length hist)%nat).
Proof. exact C25_exactly_lemma. Qed.
Print Assumptions C25_snapshot_exactly.

Example C25_case : exists b, window_after 6 [1; 2; 3; 4; 5; 6; 7; 8] b /\ cb_vec true b = Ok [3; 4; 5; 6; 7; 8].
Proof.
  eexists. split.
  - eexists. exists [CExtend [1; 2; 3; 4; 5; 6; 7; 8]]. split; [vm_compute; reflexivity|]. split; vm_compute; reflexivity.
  - vm_compute. reflexivity.
Qed.

(** C26: a copy whose distance is not available changes nothing; any other copy emits [len] bytes, each
    equal to the byte [dist] before it in history plus copy, and leaves the buffer as after pushing them. *)
Theorem C26_copy : forall cap hist b dist len out, cap < 65536 -> window_after cap hist b ->
  (~ (1 <= dist <= cb_len b) -> cb_copy dist len (b, out) = (Err (EMsg "dist must fit"), (b, out)))
  /\ (1 <= dist <= cb_len b -> room out = None ->
      exists new b', cb_copy dist len (b, out) = (Ok tt, (b', mkSink (written out ++ new) None))
        /\ cb_extend b new = Ok b'
        /\ N.of_nat (List.length new) = len
        /\ forall i, (i < List.length new)%nat ->
             nth_error (hist ++ new) (List.length hist + i)
             = nth_error (hist ++ new) (List.length hist + i - N.to_nat dist)).
Proof. exact C26_lemma. Qed.
Print Assumptions C26_copy.

Example C26_case : exists b b', window_after 4 [1; 2; 3; 4; 5] b
  /\ cb_copy 2 5 (b, new_sink) = (Ok tt, (b', mkSink [4; 5; 4; 5; 4] None))
  /\ cb_copy 5 3 (b, new_sink) = (Err (EMsg "dist must fit"), (b, new_sink)).
Proof.
  do 2 eexists. split.
  - eexists. exists [CExtend [1; 2; 3]; CPush 4; CPush 5]. split; [vm_compute; reflexivity|]. split; vm_compute; reflexivity.
  - split; vm_compute; reflexivity.
Qed.

(** C27: decompressing codes writes exactly what LZ77 with unbounded history assigns to them, and leaves a
    window that has seen history and output. *)
Theorem C27_decompression_is_lz77 : forall cap hist b codes data, cap < 65536 -> window_after cap hist b ->
  lz_decode cap hist codes = Some (hist ++ data) ->
  exists b', decompressed_codes codes (b, new_sink) = (Ok tt, (b', mkSink data None))
    /\ window_after cap (hist ++ data) b'.
Proof. exact C27_lemma. Qed.
Print Assumptions C27_decompression_is_lz77.

(** C27: the same for a whole stream from a fresh 32 KiB window. *)
Theorem C27_stream_is_lz77 : forall blocks data, encodes [] data (flat_map block_codes blocks) ->
  exists b0 b', cb_new = Ok b0
    /\ decompress_blocks blocks (b0, new_sink) = (Ok tt, (b', mkSink data None))
    /\ window_after 32768 data b'.
Proof. exact C27_lemma_stream. Qed.
Print Assumptions C27_stream_is_lz77.

Example C27_case : exists b, window_after 4 [1; 2; 3; 4; 5] b
  /\ lz_decode 4 [1; 2; 3; 4; 5] [Literal 9; Reference (mkRef 2 2)] = Some ([1; 2; 3; 4; 5] ++ [9; 5; 9; 5; 9; 5])
  /\ encodes [] [97; 97; 97; 97] (flat_map block_codes [Uncompressed [97]; FixedHuffman [Reference (mkRef 1 0)]]).
Proof.
  eexists. split.
  - eexists. exists [CExtend [1; 2; 3; 4; 5]]. split; [vm_compute; reflexivity|]. split; vm_compute; reflexivity.
  - split; vm_compute; reflexivity.
Qed.

(** C28: decompression never panics and, on a writer that does not fail, errs exactly when LZ77 decoding
    meets a distance that is zero or reaches outside the window or before the history. *)
Theorem C28_fails_exactly_out_of_window : forall cap hist b out blocks, cap < 65536 -> window_after cap hist b ->
  returns (fst (decompress_blocks blocks (b, out)))
  /\ (room out = None ->
      (fst (decompress_blocks blocks (b, out)) = Err (EMsg "dist must fit")
       <-> lz_decode cap hist (flat_map block_codes blocks) = None)
      /\ (fst (decompress_blocks blocks (b, out)) = Ok tt
          <-> lz_decode cap hist (flat_map block_codes blocks) <> None)).
Proof. exact C28_lemma_total. Qed.
Print Assumptions C28_fails_exactly_out_of_window.

(** C28: block boundaries do not matter. *)
Theorem C28_streams_across_blocks : forall cap hist b out blocks, cap < 65536 -> window_after cap hist b ->
  let split := decompress_blocks blocks (b, out) in
  let whole := decompressed_codes (flat_map block_codes blocks) (b, out) in
  fst split = fst whole /\ snd (snd split) = snd (snd whole)
  /\ (fst split = Ok tt -> fst (snd split) = fst (snd whole)).
Proof. exact C28_lemma_blocks. Qed.
Print Assumptions C28_streams_across_blocks.

Example C28_case : exists b, window_after 4 [1; 2; 3; 4; 5] b
  /\ lz_decode 4 [1; 2; 3; 4; 5] (flat_map block_codes [Uncompressed [9]; FixedHuffman [Reference (mkRef 5 0)]]) = None
  /\ fst (decompress_blocks [Uncompressed [9]; FixedHuffman [Reference (mkRef 4 0)]] (b, new_sink)) = Ok tt.
Proof.
  eexists. split.
  - eexists. exists [CExtend [1; 2; 3; 4; 5]]. split; [vm_compute; reflexivity|]. split; vm_compute; reflexivity.
  - split; vm_compute; reflexivity.
Qed.

(** C29: a writer that fails after [k] bytes has received the first [k] bytes of the right output, and the
    call reports its error. *)
Theorem C29_failing_writer : forall cap hist b blocks data k, cap < 65536 -> window_after cap hist b ->
  lz_decode cap hist (flat_map block_codes blocks) = Some (hist ++ data) ->
  let '(o, (_, out)) := decompress_blocks blocks (b, sink_with (Some k)) in
  written out = firstn k data
  /\ (if Nat.leb (List.length data) k then o = Ok tt else o = Err (EIo OtherIo)).
Proof. exact C29_lemma. Qed.
Print Assumptions C29_failing_writer.

(** C29: for codes that do not decode, the output is that of the codes before the first bad one. *)
Theorem C29_failing_writer_bad_codes : forall cap hist b blocks k, cap < 65536 -> window_after cap hist b ->
  lz_decode cap hist (flat_map block_codes blocks) = None ->
  let '(o, (_, out)) := decompress_blocks blocks (b, sink_with (Some k)) in
  exists good r more data, flat_map block_codes blocks = good ++ Reference r :: more
       /\ lz_decode cap hist good = Some (hist ++ data)
       /\ ~ (1 <= r_dist r <= N.min cap (N.of_nat (List.length (hist ++ data))))
       /\ written out = firstn k data
       /\ o = Err (if Nat.leb (List.length data) k then EMsg "dist must fit" else EIo OtherIo).
Proof. exact C29_lemma_bad. Qed.
Print Assumptions C29_failing_writer_bad_codes.

Example C29_case : exists b b', window_after 4 [1; 2; 3; 4; 5] b
  /\ decompress_blocks [Uncompressed [9]; FixedHuffman [Reference (mkRef 2 2)]] (b, sink_with (Some 3%nat))
     = (Err (EIo OtherIo), (b', mkSink [9; 5; 9] (Some 0%nat))).
Proof.
  do 2 eexists. split.
  - eexists. exists [CExtend [1; 2; 3; 4; 5]]. split; [vm_compute; reflexivity|]. split; vm_compute; reflexivity.
  - vm_compute. reflexivity.
Qed.

(** C55 is false for the derived [Default]. *)
Theorem C55_default_push_refuted : forall x, exists msg, cb_push cb_default x = Panic msg.
Proof. exact C55_refuted_lemma. Qed.
Print Assumptions C55_default_push_refuted.

(** C55, what the derived [Default] does under every operation: it is empty and stays so, takes no byte,
    refuses every copy with its message and panics on every push or reading. *)
Theorem C55_default_partial : forall debug xs dist len x out,
  cb_len cb_default = 0 /\ cb_capacity cb_default = 0 /\ cb_vec debug cb_default = Ok []
  /\ (exists msg, cb_push cb_default x = Panic msg)
  /\ (xs = [] -> cb_extend cb_default xs = Ok cb_default)
  /\ (xs <> [] -> exists msg, cb_extend cb_default xs = Panic msg)
  /\ cb_copy dist len (cb_default, out) = (Err (EMsg "dist must fit"), (cb_default, out))
  /\ (exists msg, cb_get_at_dist debug cb_default dist = Panic msg).
Proof. exact C55_default_lemma. Qed.
Print Assumptions C55_default_partial.

(** C55, proved part: buffers from [with_capacity], after any history. *)
Theorem C55_push_partial : forall cap ops x, 0 < cap < 65536 ->
  exists b0 b b', cb_with_capacity cap = Ok b0 /\ run_circ_ops ops b0 = Ok b /\ cb_push b x = Ok b'.
Proof. exact C55_partial_lemma. Qed.
Print Assumptions C55_push_partial.

(** C55, proved part: buffers from [new], after any history. *)
Theorem C55_push_new_partial : forall ops x,
  exists b0 b b', cb_new = Ok b0 /\ run_circ_ops ops b0 = Ok b /\ cb_push b x = Ok b'.
Proof. exact C55_partial_lemma_new. Qed.
Print Assumptions C55_push_new_partial.

Example C55_case : exists b0 b, cb_with_capacity 1 = Ok b0 /\ run_circ_ops [CPush 1; CPush 2] b0 = Ok b.
Proof. do 2 eexists. split; vm_compute; reflexivity. Qed.
