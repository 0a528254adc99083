(** Properties C01-C06, C08: bit reader, bit writer, bit vector (lib/src/bit.rs). *)
From Verif Require Import Base M_bit M_lib M_parse Spec Clients L_bits L_writer L_reader L_bitprops L_stored L_P_bit.
Local Open Scope N_scope.
Local Open Scope model_scope.

(** C01: any bit sequence written, aligned and read back is the same sequence followed by fewer than eight
    zero bits; the byte count is the least possible and nothing errors or panics. *)
Theorem C01_bit_round_trip : forall (bits : list bool) (e : errkind),
  exists (w : bit_writer) (bytes : list N) (k : nat) (r : bit_reader),
    (write_bits bits ;;; bw_align) (bw_new new_sink) = (Ok tt, w)
    /\ bw_into_inner w = Ok (mkSink bytes None)
    /\ (k < 8)%nat
    /\ List.length bytes = ((List.length bits + 7) / 8)%nat
    /\ read_bits (List.length bits + k) (br_new (mkSource bytes e)) = (Ok (bits ++ repeat false k), r)
    /\ rest (br_inner r) = [].
Proof. exact C01_lemma. Qed.
Print Assumptions C01_bit_round_trip.

Example C01_case :
  (write_bits [true; false; true; true; false; false; true; false; true] ;;; bw_align) (bw_new new_sink)
  = (Ok tt, mkWriter (mkSink [77; 1] None) (mkBitVec [] 0)).
Proof. vm_compute. reflexivity. Qed.

(** C02: after any history of writer calls the bytes that left the writer are the whole bytes of the
    stream, packed least significant bit first, and the pending bits are the rest. *)
Theorem C02_writer_history : forall ops : list write_op,
  Forall write_op_ok ops ->
  let stream := fold_left after_write_op ops [] in
  let whole := (8 * (List.length stream / 8))%nat in
  exists w, run_write_ops ops (bw_new new_sink) = (Ok tt, w)
            /\ written (bw_inner w) = pack (firstn whole stream)
            /\ bv_to_list (bw_current w) = Ok (skipn whole stream).
Proof. exact C02_lemma. Qed.
Print Assumptions C02_writer_history.

Example C02_case :
  Forall write_op_ok [WBit true; WVal 13 4321; WVec [true; true; false]; WAlign; WBit true]
  /\ List.length (fold_left after_write_op [WBit true; WVal 13 4321; WVec [true; true; false]; WAlign; WBit true] [])
     = 25%nat.
Proof. split; [repeat constructor; discriminate | vm_compute; reflexivity]. Qed.

(** C03 is false of the code: popping inside a byte leaves the popped one behind, and pushing a zero does
    not clear it, so [get] disagrees with the stack of bits. *)
Theorem C03_bitvec_stack_refuted : exists (ops : list vec_op) (pops : list (option bool)) (v : bitvec) (i : nat) (b : bool),
  run_vec_ops ops bv_new = Ok (pops, v)
  /\ nth_error (snd (list_vec_ops ops [])) i = Some b
  /\ bv_get v i = Ok (negb b).
Proof. exact C03_refuted_lemma. Qed.
Print Assumptions C03_bitvec_stack_refuted.

(** C03, what does hold: any pushes, followed by any pops and pushes of ones, agree with a plain list in
    every pop result, [len], [get] and iteration.  Missing: pushes of zeros after a pop (false, above). *)
Theorem C03_bitvec_stack_partial : forall (pushes : list bool) (ops : list vec_op),
  Forall no_false ops ->
  let history := map VPush pushes ++ ops in
  let '(pops, l) := list_vec_ops history [] in
  exists v, run_vec_ops history bv_new = Ok (pops, v)
    /\ bv_len v = List.length l
    /\ bv_to_list v = Ok l
    /\ (forall i b, nth_error l i = Some b -> bv_get v i = Ok b).
Proof. exact C03_partial_lemma. Qed.
Print Assumptions C03_bitvec_stack_partial.

Example C03_case : Forall no_false [VPop; VPush true; VPop; VPop]
  /\ list_vec_ops (map VPush [true; false; true] ++ [VPop; VPush true; VPop; VPop]) []
     = ([Some true; Some true; Some false], [true]).
Proof. split; [repeat constructor | reflexivity]. Qed.

(** C04: at any bit offset of any byte stream, [read_part n] returns the value whose binary digits, least
    significant first, are the next [n] bits, or the source's error when fewer are left. *)
Theorem C04_read_part_value : forall (bytes : list N) (e : errkind) (off : nat) (n : N) l r,
  bytes_ok bytes -> n <= 16 ->
  read_bits off (br_new (mkSource bytes e)) = (Ok l, r) ->
  let next := skipn off (bits_of_bytes bytes) in
  if Nat.leb (N.to_nat n) (List.length next)
  then exists r', br_read_part n r = (Ok (lsb_value (firstn (N.to_nat n) next)), r')
  else exists r', br_read_part n r = (Err (EIo e), r').
Proof. exact C04_lemma_read. Qed.
Print Assumptions C04_read_part_value.

(** C04: a value of at most 16 bits written between any other bits is read back unchanged. *)
Theorem C04_field_round_trip : forall (before after : list bool) (n v : N) (e : errkind),
  n <= 16 -> v < 2 ^ n ->
  exists w s r0 r,
    (write_bits before ;;; bw_write_bits_val n v ;;; write_bits after ;;; bw_align) (bw_new new_sink)
      = (Ok tt, w)
    /\ bw_into_inner w = Ok s
    /\ read_bits (List.length before) (br_new (mkSource (written s) e)) = (Ok before, r0)
    /\ br_read_part n r0 = (Ok v, r).
Proof. exact C04_lemma_roundtrip. Qed.
Print Assumptions C04_field_round_trip.

Example C04_case : 13 <= 16 /\ 8191 < 2 ^ 13
  /\ fst (br_read_part 13 (br_new (mkSource [255; 31; 9] UnexpectedEof))) = Ok 8191.
Proof. split; [lia|]. split; [lia|]. vm_compute. reflexivity. Qed.

(** C05: after [n] bits, [align] succeeds exactly when the unread bits of the current byte are zero; reading
    then goes on at the next byte boundary; no further byte of the source is touched either way. *)
Theorem C05_align : forall (bytes : list N) (e : errkind) (n : nat) l r,
  bytes_ok bytes ->
  read_bits n (br_new (mkSource bytes e)) = (Ok l, r) ->
  let pos := (8 * ((n + 7) / 8))%nat in
  let padding := skipn n (firstn pos (bits_of_bytes bytes)) in
  if forallb negb padding
  then exists r', br_align r = (Ok tt, r')
         /\ rest (br_inner r') = rest (br_inner r)
         /\ forall m, (m <= 8 * List.length bytes - pos)%nat ->
              exists r'', read_bits m r' = (Ok (firstn m (skipn pos (bits_of_bytes bytes))), r'')
  else exists r', br_align r = (Err (EMsg "padding bits should always be empty"), r')
         /\ rest (br_inner r') = rest (br_inner r).
Proof. exact C05_lemma. Qed.
Print Assumptions C05_align.

Example C05_case : exists r r1 r2 r3,
  read_bits 3 (br_new (mkSource [7; 200] UnexpectedEof)) = (Ok [true; true; true], r) /\
  br_align r = (Ok tt, r1) /\
  read_bits 3 (br_new (mkSource [23; 200] UnexpectedEof)) = (Ok [true; true; true], r2) /\
  br_align r2 = (Err (EMsg "padding bits should always be empty"), r3).
Proof. do 4 eexists. split; [vm_compute; reflexivity|]. split; [vm_compute; reflexivity|]. split; vm_compute; reflexivity. Qed.

(** C06: reading [n] bits takes exactly ceil(n/8) bytes from the source. *)
Theorem C06_no_over_read : forall (bytes : list N) (e : errkind) (n : nat) l r,
  bytes_ok bytes ->
  read_bits n (br_new (mkSource bytes e)) = (Ok l, r) ->
  l = firstn n (bits_of_bytes bytes)
  /\ rest (br_inner r) = skipn ((n + 7) / 8) bytes.
Proof. exact C06_lemma. Qed.
Print Assumptions C06_no_over_read.

Example C06_case : exists l r,
  read_bits 9 (br_new (mkSource [1; 2; 3; 4] UnexpectedEof)) = (Ok l, r) /\ rest (br_inner r) = [3; 4].
Proof. do 2 eexists. split; vm_compute; reflexivity. Qed.

(** C08: from a byte-aligned position, reading a length-prefixed chunk never panics or diverges, and it
    returns [data] leaving [follow] exactly when the stream there is LEN, its one's complement (both little
    endian), [data] of that length, and [follow]. *)
Theorem C08_stored_header : forall (bytes : list N) (e : errkind) (k : nat) l r,
  bytes_ok bytes ->
  read_bits (8 * k) (br_new (mkSource bytes e)) = (Ok l, r) ->
  (exists out r', br_read_length_prefixed r = (out, r')
     /\ ((exists data, out = Ok data) \/ (exists er, out = Err er))) /\
  forall data follow,
    (exists r', br_read_length_prefixed r = (Ok data, r') /\ rest (br_inner r') = follow)
    <-> (N.of_nat (List.length data) < 65536
         /\ skipn k bytes = le16_bytes (N.of_nat (List.length data))
                            ++ le16_bytes (65535 - N.of_nat (List.length data)) ++ data ++ follow).
Proof. exact C08_lemma. Qed.
Print Assumptions C08_stored_header.

Example C08_case : exists l r r',
  read_bits (8 * 1) (br_new (mkSource [9; 2; 0; 253; 255; 65; 66; 67] UnexpectedEof)) = (Ok l, r) /\
  br_read_length_prefixed r = (Ok [65; 66], r') /\ rest (br_inner r') = [67].
Proof. do 3 eexists. split; [vm_compute; reflexivity|]. split; vm_compute; reflexivity. Qed.
