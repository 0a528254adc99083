(** What C87 talks about: bits after which no reader need look any further, because no stream starts like that, and the
    complaint about them.  Nothing here models code of the repository. *)
From Verif Require Import Base M_bit M_lib Spec.
Local Open Scope N_scope.

(** Code lengths that are not those of a complete code. *)
Inductive bad_code (lens : list N) : string -> Prop :=
| BC_few : (List.length lens < 2)%nat -> bad_code lens "too few lengths"
| BC_fraction : (2 <= List.length lens)%nat -> kraft lens mod 2 ^ 15 <> 0 -> bad_code lens "not a tree"
| BC_whole : (2 <= List.length lens)%nat -> kraft lens mod 2 ^ 15 = 0 -> kraft lens <> 2 ^ 15 -> bad_code lens "non-canonical code".

(** The code lengths of a header, when [nl] and [nd] are announced and the code length code has lengths [cl]. *)
Inductive wrong_lengths (cl : list N) (nl nd : N) : string -> list bool -> Prop :=
| WL_copy w :  (* repeat the previous length, at the very start *)
    rfc_code cl 16 = Some w -> wrong_lengths cl nl nd "no value to copy" w
| WL_run items i out out' ws :  (* the last run goes too far *)
    expand None items out -> expand None (items ++ [i]) out' -> items_bits cl (items ++ [i]) ws ->
    N.of_nat (List.length out) < nl + nd < N.of_nat (List.length out') ->
    wrong_lengths cl nl nd "run exceeds number of codes" ws
| WL_literals items ll dl ws msg :
    expand None items (ll ++ dl) -> items_bits cl items ws ->
    N.of_nat (List.length ll) = nl -> N.of_nat (List.length dl) = nd ->
    bad_code ll msg -> wrong_lengths cl nl nd msg ws
| WL_distances items ll dl ws msg :
    expand None items (ll ++ dl) -> items_bits cl items ws ->
    N.of_nat (List.length ll) = nl -> N.of_nat (List.length dl) = nd ->
    complete ll -> ~ dist_lens_ok dl -> bad_code dl msg -> wrong_lengths cl nl nd msg ws.

(** A dynamic header (RFC 1951 section 3.2.7). *)
Inductive wrong_header : string -> list bool -> Prop :=
| WH_code hlit hdist hclen cls msg :
    hlit < 32 -> hdist < 32 -> hclen < 16 -> N.of_nat (List.length cls) = hclen + 4 -> Forall (fun c => c < 8) cls ->
    bad_code (cl_lens cls) msg ->
    wrong_header msg (lsb 5 hlit ++ lsb 5 hdist ++ lsb 4 hclen ++ flat_map (lsb 3) cls)
| WH_lengths hlit hdist hclen cls msg ws :
    hlit < 32 -> hdist < 32 -> hclen < 16 -> N.of_nat (List.length cls) = hclen + 4 -> Forall (fun c => c < 8) cls ->
    complete (cl_lens cls) -> wrong_lengths (cl_lens cls) (hlit + 257) (hdist + 1) msg ws ->
    wrong_header msg (lsb 5 hlit ++ lsb 5 hdist ++ lsb 4 hclen ++ flat_map (lsb 3) cls ++ ws).

(** The bits of a distance symbol that stands for no distance: 30, 31, or the unused bit of a single one-bit code. *)
Definition no_distance (dl : list N) (w : list bool) : Prop :=
  (exists s, 30 <= s /\ rfc_code dl s = Some w) \/ (w = [true] /\ exists a b, dl = repeat 0 a ++ [1] ++ repeat 0 b).

Inductive wrong_code (ll dl : list N) : string -> list bool -> Prop :=
| WC_symbol s w : 286 <= s -> rfc_code ll s = Some w -> wrong_code ll dl "reserved symbol" w
| WC_no_table len s n v w :
    table_row length_table len s n v -> rfc_code ll s = Some w -> dl = [0] ->
    wrong_code ll dl "length symbol encountered but no table" (w ++ lsb (N.to_nat n) v)
| WC_distance len s n v w dw :
    table_row length_table len s n v -> rfc_code ll s = Some w -> no_distance dl dw ->
    wrong_code ll dl "reserved distance symbol" (w ++ lsb (N.to_nat n) v ++ dw).

Inductive wrong_body (ll dl : list N) : string -> list bool -> Prop :=
| WB_here msg w : wrong_code ll dl msg w -> wrong_body ll dl msg w
| WB_next c w msg ws : code_bits ll dl c w -> wrong_body ll dl msg ws -> wrong_body ll dl msg (w ++ ws).

(** Bits [w] up to the next byte boundary that are not all zero. *)
Definition wrong_padding (off : nat) (w : list bool) : Prop := pads off (List.length w) /\ In true w.

(** A block whose type starts [off] bits into the stream. *)
Inductive wrong_block (off : nat) : string -> list bool -> Prop :=
| WK_type : wrong_block off "reserved block type" (lsb 2 3)
| WK_padding w : wrong_padding (off + 2) w -> wrong_block off "padding bits should always be empty" (lsb 2 0 ++ w)
| WK_length k len nlen :
    pads (off + 2) k -> len < 65536 -> nlen < 65536 -> len + nlen <> 65535 ->
    wrong_block off "uncompressed block length validation failed"
      (lsb 2 0 ++ repeat false k ++ bits_of_bytes (le16_bytes len ++ le16_bytes nlen))
| WK_fixed msg w : wrong_body fixed_ll fixed_dl msg w -> wrong_block off msg (lsb 2 1 ++ w)
| WK_header msg w : wrong_header msg w -> wrong_block off msg (lsb 2 2 ++ w)
| WK_dynamic ll dl hdr msg w : dyn_header ll dl hdr -> wrong_body ll dl msg w -> wrong_block off msg (lsb 2 2 ++ hdr ++ w).

(** [wrong_stream off blocks msg w]: after [blocks], the bits [w] go wrong with [msg]. *)
Inductive wrong_stream : nat -> list Block -> string -> list bool -> Prop :=
| WS_block off (final : bool) msg w : wrong_block (off + 1) msg w -> wrong_stream off [] msg (final :: w)
| WS_next off b bs msg w ws :
    block_bits (off + 1) b w -> wrong_stream (off + 1 + List.length w) bs msg ws ->
    wrong_stream off (b :: bs) msg (false :: w ++ ws)
| WS_padding off b w p :
    block_bits (off + 1) b w -> wrong_padding (off + 1 + List.length w) p ->
    wrong_stream off [b] "padding bits should always be empty" (true :: w ++ p).
