(** Specifications, written from RFC 1951, RFC 1952 and plain list functions.  Nothing here uses a
    function of the model; only the data types [Ref], [Code], [Block], [Trace], [bitvec] are shared. *)
From Verif Require Import Base M_bit M_lib.
Local Open Scope N_scope.

(** ** Bits and bytes (RFC 1951 section 3.1.1) *)

(** [width] bits of [v], least significant first. *)
Definition lsb (width : nat) (v : N) : list bool :=
  map (fun i => N.testbit v (N.of_nat i)) (seq 0 width).

(** [width] bits of [v], most significant first (Huffman codes). *)
Definition msb (width : nat) (v : N) : list bool := rev (lsb width v).

(** The number whose binary digits, least significant first, are [bs]. *)
Fixpoint lsb_value (bs : list bool) : N :=
  match bs with
  | [] => 0
  | b :: bs' => (if b then 1 else 0) + 2 * lsb_value bs'
  end.

(** The bit stream of a byte string. *)
Definition bits_of_bytes (l : list N) : list bool := flat_map (lsb 8) l.

(** Pack bits into bytes, least significant bit first, the last byte filled with zeros. *)
Fixpoint pack_fuel (fuel : nat) (bs : list bool) : list N :=
  match fuel, bs with
  | _, [] => []
  | O, _ => []
  | S f, _ => lsb_value (firstn 8 bs) :: pack_fuel f (skipn 8 bs)
  end.
Definition pack (bs : list bool) : list N := pack_fuel (List.length bs) bs.

(** A bit vector holding exactly the bits [bs]. *)
Definition bitvec_of (bs : list bool) : bitvec := mkBitVec (pack bs) (List.length bs).

(** ** Canonical Huffman codes (RFC 1951 section 3.2.2) *)

(** How many symbols have code length [l]. *)
Definition bl_count (lens : list N) (l : N) : N :=
  N.of_nat (List.length (filter (N.eqb l) lens)).

(** [code = (code + bl_count[bits-1]) << 1; next_code[bits] = code], with [bl_count[0] = 0]. *)
Fixpoint next_code (lens : list N) (bits : nat) : N :=
  match bits with
  | O => 0
  | S b => 2 * (next_code lens b + match b with O => 0 | _ => bl_count lens (N.of_nat b) end)
  end.

(** The code of symbol [s]: symbols of equal length get consecutive values in symbol order. *)
Definition rfc_code (lens : list N) (s : N) : option (list bool) :=
  match nth_error lens (N.to_nat s) with
  | Some l =>
      if (1 <=? l) && (l <=? 15)
      then Some (msb (N.to_nat l)
                     (next_code lens (N.to_nat l)
                      + bl_count (firstn (N.to_nat s) lens) l))
      else None
  | None => None
  end.

(** Kraft sum of the positive lengths (at most 15) in units of 2^-15. *)
Definition kraft (lens : list N) : N :=
  fold_right N.add 0
    (map (fun l => if (1 <=? l) && (l <=? 15) then 2 ^ (15 - l) else 0) lens).

(** A complete code: every infinite bit string starts with exactly one code word. *)
Definition complete (lens : list N) : Prop := (2 <= List.length lens)%nat /\ kraft lens = 2 ^ 15.

(** ** Length and distance tables (RFC 1951 section 3.2.5): symbol, extra bits, smallest value *)

Definition length_table : list (N * N * N) :=
  [ (257,0,3); (258,0,4); (259,0,5); (260,0,6); (261,0,7); (262,0,8); (263,0,9); (264,0,10);
    (265,1,11); (266,1,13); (267,1,15); (268,1,17);
    (269,2,19); (270,2,23); (271,2,27); (272,2,31);
    (273,3,35); (274,3,43); (275,3,51); (276,3,59);
    (277,4,67); (278,4,83); (279,4,99); (280,4,115);
    (281,5,131); (282,5,163); (283,5,195); (284,5,227);
    (285,0,258) ].

Definition distance_table : list (N * N * N) :=
  [ (0,0,1); (1,0,2); (2,0,3); (3,0,4);
    (4,1,5); (5,1,7); (6,2,9); (7,2,13); (8,3,17); (9,3,25); (10,4,33); (11,4,49);
    (12,5,65); (13,5,97); (14,6,129); (15,6,193); (16,7,257); (17,7,385); (18,8,513); (19,8,769);
    (20,9,1025); (21,9,1537); (22,10,2049); (23,10,3073); (24,11,4097); (25,11,6145);
    (26,12,8193); (27,12,12289); (28,13,16385); (29,13,24577) ].

(** [val] is written as symbol [sym] followed by [extra] bits holding [e]. *)
Definition table_row (table : list (N * N * N)) (val sym extra e : N) : Prop :=
  exists base, In (sym, extra, base) table /\ e < 2 ^ extra /\ val = base + e.

(** ** Well-formed codes *)

Definition ref_ok (r : Ref) : Prop :=
  1 <= r_dist r <= 32768 /\ r_run_minus_3 r <= 255.
Definition code_ok (c : Code) : Prop :=
  match c with
  | Literal b => b < 256
  | Reference r => ref_ok r
  end.
(** The match length a reference stands for. *)
Definition ref_len (r : Ref) : N := r_run_minus_3 r + 3.

(** ** Block bodies (RFC 1951 section 3.2.3) *)

(** Bits of one literal or of one length/distance pair under code lengths [ll] and [dl]. *)
Inductive code_bits (ll dl : list N) : Code -> list bool -> Prop :=
| CB_literal b w : b < 256 -> rfc_code ll b = Some w -> code_bits ll dl (Literal b) w
| CB_reference r lsym lextra le lw dsym dextra de dw :
    table_row length_table (ref_len r) lsym lextra le ->
    rfc_code ll lsym = Some lw ->
    table_row distance_table (r_dist r) dsym dextra de ->
    rfc_code dl dsym = Some dw ->
    code_bits ll dl (Reference r)
      (lw ++ lsb (N.to_nat lextra) le ++ dw ++ lsb (N.to_nat dextra) de).

(** A list of codes followed by the end-of-block symbol. *)
Inductive body_bits (ll dl : list N) : list Code -> list bool -> Prop :=
| BB_end w : rfc_code ll 256 = Some w -> body_bits ll dl [] w
| BB_code c cs w ws :
    code_bits ll dl c w -> body_bits ll dl cs ws -> body_bits ll dl (c :: cs) (w ++ ws).

(** Fixed codes (RFC 1951 section 3.2.6). *)
Definition fixed_ll : list N :=
  map (fun s => if (s <=? 143)%nat then 8 else if (s <=? 255)%nat then 9
                else if (s <=? 279)%nat then 7 else 8) (seq 0 288).
Definition fixed_dl : list N := map (fun _ => 5) (seq 0 32).

(** ** Dynamic headers (RFC 1951 section 3.2.7) *)

Definition cl_order : list nat := [16;17;18;0;8;7;9;6;10;5;11;4;12;3;13;2;14;1;15]%nat.

(** Code lengths of the code length alphabet, given in transmission order; missing ones are 0. *)
Definition cl_lens (cls : list N) : list N :=
  map (fun s => fold_right (fun p acc => if Nat.eqb (fst p) s then snd p else acc) 0
                           (combine cl_order cls)) (seq 0 19).

Inductive cl_item := CLen (l : N) | CCopy (n : N) | CZeros3 (n : N) | CZeros11 (n : N).

(** The code lengths a sequence of items stands for; [prev] is the previous code length. *)
Inductive expand : option N -> list cl_item -> list N -> Prop :=
| EX_nil prev : expand prev [] []
| EX_len prev l is out : l <= 15 -> expand (Some l) is out -> expand prev (CLen l :: is) (l :: out)
| EX_copy p n is out :
    3 <= n <= 6 -> expand (Some p) is out ->
    expand (Some p) (CCopy n :: is) (repeat p (N.to_nat n) ++ out)
| EX_zeros3 prev n is out :
    3 <= n <= 10 -> expand (Some 0) is out ->
    expand prev (CZeros3 n :: is) (repeat 0 (N.to_nat n) ++ out)
| EX_zeros11 prev n is out :
    11 <= n <= 138 -> expand (Some 0) is out ->
    expand prev (CZeros11 n :: is) (repeat 0 (N.to_nat n) ++ out).

Inductive item_bits (cl : list N) : cl_item -> list bool -> Prop :=
| IB_len l w : rfc_code cl l = Some w -> item_bits cl (CLen l) w
| IB_copy n w : rfc_code cl 16 = Some w -> item_bits cl (CCopy n) (w ++ lsb 2 (n - 3))
| IB_zeros3 n w : rfc_code cl 17 = Some w -> item_bits cl (CZeros3 n) (w ++ lsb 3 (n - 3))
| IB_zeros11 n w : rfc_code cl 18 = Some w -> item_bits cl (CZeros11 n) (w ++ lsb 7 (n - 11)).

Inductive items_bits (cl : list N) : list cl_item -> list bool -> Prop :=
| IBS_nil : items_bits cl [] []
| IBS_cons i is w ws : item_bits cl i w -> items_bits cl is ws -> items_bits cl (i :: is) (w ++ ws).

(** The distance code must be complete, or "no distance codes" (a single zero length), or a single
    one-bit code (for one of the symbols 0..30). *)
Definition dist_lens_ok (dl : list N) : Prop :=
  dl = [0]
  \/ (exists a b, dl = repeat 0 a ++ [1] ++ repeat 0 b /\ (a < 31)%nat)
  \/ complete dl.

(** [hdr] is a dynamic header announcing literal/length code lengths [ll] and distance code lengths
    [dl].  The implementation allows the full range of the 5-bit counts (RFC: at most 286 and 30). *)
Inductive dyn_header (ll dl : list N) : list bool -> Prop :=
| DH hlit hdist hclen cls items ws :
    hlit < 32 -> hdist < 32 -> hclen < 16 ->
    N.of_nat (List.length cls) = hclen + 4 ->
    Forall (fun c => c < 8) cls ->
    complete (cl_lens cls) ->
    N.of_nat (List.length ll) = hlit + 257 ->
    N.of_nat (List.length dl) = hdist + 1 ->
    expand None items (ll ++ dl) ->
    items_bits (cl_lens cls) items ws ->
    complete ll ->
    dist_lens_ok dl ->
    dyn_header ll dl
      (lsb 5 hlit ++ lsb 5 hdist ++ lsb 4 hclen ++ flat_map (lsb 3) cls ++ ws).

(** ** Blocks and streams *)

(** [k] zero bits bring bit offset [off] to a byte boundary. *)
Definition pads (off k : nat) : Prop := (k < 8)%nat /\ ((off + k) mod 8 = 0)%nat.

Definition le16_bytes (v : N) : list N := [v mod 256; v / 256].

(** [block_bits off b bits]: the block type and contents of [b], when the block type starts [off] bits
    into the stream. *)
Inductive block_bits (off : nat) : Block -> list bool -> Prop :=
| BK_stored data k :
    N.of_nat (List.length data) < 65536 -> bytes_ok data -> pads (off + 2) k ->
    block_bits off (Uncompressed data)
      (lsb 2 0 ++ repeat false k
       ++ bits_of_bytes (le16_bytes (N.of_nat (List.length data))
                         ++ le16_bytes (65535 - N.of_nat (List.length data)) ++ data))
| BK_fixed cs w :
    body_bits fixed_ll fixed_dl cs w -> block_bits off (FixedHuffman cs) (lsb 2 1 ++ w)
| BK_dynamic ll dl hdr cs w :
    dyn_header ll dl hdr -> body_bits ll dl cs w ->
    block_bits off (DynamicHuffman (bitvec_of hdr) cs) (lsb 2 2 ++ hdr ++ w).

(** A whole stream: each block preceded by its final flag, zero padding at the end. *)
Inductive stream_bits : nat -> list Block -> list bool -> Prop :=
| SB_last off b w k :
    block_bits (off + 1) b w -> pads (off + 1 + List.length w) k ->
    stream_bits off [b] (true :: w ++ repeat false k)
| SB_more off b bs w ws :
    bs <> [] ->
    block_bits (off + 1) b w -> stream_bits (off + 1 + List.length w) bs ws ->
    stream_bits off (b :: bs) (false :: w ++ ws).

(** ** Canonical streams: where RFC 1951 allows a choice, the one the writer makes *)

(** A match of length 258 is written with symbol 285 (not as 284 with extra bits 31). *)
Definition canonical_code (ll dl : list N) (c : Code) (w : list bool) : Prop :=
  code_bits ll dl c w
  /\ match c with
     | Reference r => ref_len r = 258 -> exists lw t, rfc_code ll 285 = Some lw /\ w = lw ++ t
     | Literal _ => True
     end.

Inductive canonical_body (ll dl : list N) : list Code -> list bool -> Prop :=
| CY_end w : rfc_code ll 256 = Some w -> canonical_body ll dl [] w
| CY_code c cs w ws :
    canonical_code ll dl c w -> canonical_body ll dl cs ws -> canonical_body ll dl (c :: cs) (w ++ ws).

(** The length field of a stored block reads the same in either byte order. *)
Definition symmetric_length (data : list N) : Prop :=
  N.of_nat (List.length data) mod 256 = N.of_nat (List.length data) / 256.

Inductive canonical_block (off : nat) : Block -> list bool -> Prop :=
| CK_stored data w :
    symmetric_length data -> block_bits off (Uncompressed data) w ->
    canonical_block off (Uncompressed data) w
| CK_fixed cs w :
    canonical_body fixed_ll fixed_dl cs w -> canonical_block off (FixedHuffman cs) (lsb 2 1 ++ w)
| CK_dynamic ll dl hdr cs w :
    dyn_header ll dl hdr -> canonical_body ll dl cs w ->
    canonical_block off (DynamicHuffman (bitvec_of hdr) cs) (lsb 2 2 ++ hdr ++ w).

Inductive canonical_stream : nat -> list Block -> list bool -> Prop :=
| CS_last off b w k :
    canonical_block (off + 1) b w -> pads (off + 1 + List.length w) k ->
    canonical_stream off [b] (true :: w ++ repeat false k)
| CS_more off b bs w ws :
    bs <> [] ->
    canonical_block (off + 1) b w -> canonical_stream (off + 1 + List.length w) bs ws ->
    canonical_stream off (b :: bs) (false :: w ++ ws).

(** [c] is in range and has a code in both tables (for length 258: symbol 285 has one). *)
Definition expressible (ll dl : list N) (c : Code) : Prop :=
  match c with
  | Literal b => b < 256 /\ rfc_code ll b <> None
  | Reference r =>
      ref_ok r
      /\ (exists s n v, table_row length_table (ref_len r) s n v /\ (ref_len r = 258 -> s = 285)
                        /\ rfc_code ll s <> None)
      /\ (exists s n v, table_row distance_table (r_dist r) s n v /\ rfc_code dl s <> None)
  end.

(** A block that can be written: in-range codes the block's tables can express. *)
Definition block_ok (b : Block) : Prop :=
  match b with
  | Uncompressed data => bytes_ok data /\ N.of_nat (List.length data) < 65536
  | FixedHuffman cs => Forall code_ok cs
  | DynamicHuffman trees cs =>
      exists ll dl hdr, trees = bitvec_of hdr /\ dyn_header ll dl hdr /\ rfc_code ll 256 <> None
                        /\ Forall (expressible ll dl) cs
  end.

(** ** LZ77 (RFC 1951 section 2, 3.2.3): plain lists, unbounded history *)

(** Append [n] bytes, each equal to the byte [dist] before it. *)
Fixpoint lz_copy (n dist : nat) (hist : list N) : list N :=
  match n with
  | O => hist
  | S n' => lz_copy n' dist (hist ++ [nth (List.length hist - dist) hist 0])
  end.

(** Decode [codes] after history [hist]; distances may reach back at most [window] bytes.  Returns the
    history including the output. *)
Fixpoint lz_decode (window : N) (hist : list N) (codes : list Code) : option (list N) :=
  match codes with
  | [] => Some hist
  | Literal b :: codes' => lz_decode window (hist ++ [b]) codes'
  | Reference r :: codes' =>
      if (1 <=? r_dist r) && (r_dist r <=? window) && (r_dist r <=? N.of_nat (List.length hist))
      then lz_decode window (lz_copy (N.to_nat (ref_len r)) (N.to_nat (r_dist r)) hist) codes'
      else None
  end.

Definition block_codes (b : Block) : list Code :=
  match b with
  | Uncompressed data => map Literal data
  | FixedHuffman codes | DynamicHuffman _ codes => codes
  end.

(** [codes] is an encoding of [data] after [preroll]. *)
Definition encodes (preroll data : list N) (codes : list Code) : Prop :=
  lz_decode 32768 preroll codes = Some (preroll ++ data).

(** The last [n] elements. *)
Definition lastn {A} (n : nat) (l : list A) : list A := skipn (List.length l - n) l.

(** ** gzip member header (RFC 1952 section 2.3) *)

Definition zero_terminated (s : list N) : Prop :=
  exists body, s = body ++ [0] /\ ~ In 0 body.

Definition optional (present : bool) (field : list N -> Prop) (s : list N) : Prop :=
  if present then field s else s = [].

Definition gzip_header (h : list N) : Prop :=
  exists flg fixed extra name comment hcrc,
    h = [31; 139; 8; flg] ++ fixed ++ extra ++ name ++ comment ++ hcrc
    /\ List.length fixed = 6%nat
    /\ N.testbit flg 5 = false /\ N.testbit flg 6 = false /\ N.testbit flg 7 = false
    /\ optional (N.testbit flg 2)
         (fun s => exists lo hi body, s = [lo; hi] ++ body /\ N.of_nat (List.length body) = lo + 256 * hi) extra
    /\ optional (N.testbit flg 3) zero_terminated name
    /\ optional (N.testbit flg 4) zero_terminated comment
    /\ optional (N.testbit flg 1) (fun s => List.length s = 2%nat) hcrc.

(** ** Match finding *)

(** Common run of [data] at [pos] and [dist] before it: exactly [n] bytes, the longest allowed. *)
Definition longest_match (data : list N) (pos dist n : nat) : Prop :=
  (n <= 258)%nat /\ (pos + n <= List.length data)%nat
  /\ (forall i, (i < n)%nat -> nth_error data (pos + i) = nth_error data (pos + i - dist))
  /\ (n = 258%nat \/ (pos + n = List.length data)%nat
      \/ nth_error data (pos + n) <> nth_error data (pos + n - dist)).

(** The three bytes at [p]. *)
Definition three (w : list N) (p : nat) : list N := firstn 3 (skipn p w).

(** gzip's 15-bit hash of the three bytes at [p]. *)
Definition hash3 (w : list N) (p : nat) : N :=
  N.lxor (N.lxor (1024 * nth p w 0) (32 * nth (p + 1) w 0)) (nth (p + 2) w 0) mod 32768.

(** [q] lies strictly inside one of the given runs (start, length). *)
Definition hidden (runs : list (nat * N)) (q : nat) : bool :=
  existsb (fun '(start, len) => Nat.ltb start q && Nat.ltb q (start + N.to_nat len)) runs.

(** The positions to try at [pos], nearest first: of the [limit] nearest positions that are not hidden and
    have the same hash (position 0 is never considered), those within 32768 with the same three bytes. *)
Definition candidates (w : list N) (limit : nat) (runs : list (nat * N)) (pos : nat) : list nat :=
  filter (fun q => (N.of_nat (pos - q) <=? 32768) && (if list_eq_dec N.eq_dec (three w q) (three w pos) then true else false))
    (firstn limit
       (filter (fun q => (hash3 w q =? hash3 w pos) && negb (hidden runs q)) (rev (seq 1 (pos - 1))))).

(** [x] is the first element whose score reaches the cap, or, if there is none, the first of maximal score. *)
Definition first_best {A} (score : A -> N) (cap : N) (l : list A) (x : A) : Prop :=
  exists before after, l = before ++ x :: after
  /\ ((cap <= score x /\ forall y, In y before -> score y < cap)
      \/ ((forall y, In y l -> score y < cap)
          /\ (forall y, In y before -> score y < score x) /\ (forall y, In y after -> score y <= score x))).

(** gzip's own configuration table (deflate.c): for levels 1 to 9 the good length, the lazy length, the
    nice length and the chain length. *)
Definition gzip_levels : list (N * N * N * N) := [
  (4, 4, 8, 4); (4, 5, 16, 8); (4, 6, 32, 32);
  (4, 4, 16, 16); (8, 16, 32, 32); (8, 16, 128, 128); (8, 32, 128, 256); (32, 128, 258, 1024); (32, 258, 258, 4096)].

(** ** Serialised traces *)

(** [trace_bytes bs hints]: [bs] is a sequence of complete records for [hints].  A record starts with a
    little-endian 16-bit number [v]: 0 is a literal, 1 to 32768 a distance followed by the length less 3,
    more than 32768 stands for [v - 32768] correct guesses. *)
Inductive trace_bytes : list N -> list Trace -> Prop :=
| tb_nil : trace_bytes [] []
| tb_literal bs hints : trace_bytes bs hints -> trace_bytes (0 :: 0 :: bs) (ActuallyLiteral :: hints)
| tb_reference lo hi len bs hints : 1 <= lo + 256 * hi <= 32768 -> trace_bytes bs hints ->
    trace_bytes (lo :: hi :: len :: bs) (Actually (mkRef (lo + 256 * hi) len) :: hints)
| tb_correct lo hi bs hints : 32768 < lo + 256 * hi -> trace_bytes bs hints ->
    trace_bytes (lo :: hi :: bs) (repeat Correct (N.to_nat (lo + 256 * hi - 32768)) ++ hints).

Definition hint_ok (h : Trace) : Prop := match h with Actually r => ref_ok r | _ => True end.

(** ** Content-defined chunking *)

Definition sum_list (l : list N) : N := fold_right N.add 0 l.

(** The last 8192 bytes of [l] sum to a multiple of 4096. *)
Definition rsync_stop (l : list N) : Prop := sum_list (lastn (N.to_nat 8192) l) mod 4096 = 0.

(** No proper prefix of 8192 bytes or more ends at such a position. *)
Definition rsync_unbroken (chunk : list N) : Prop :=
  forall n, 8192 <= N.of_nat n -> (n < List.length chunk)%nat -> ~ rsync_stop (firstn n chunk).

(** CRC-32 of RFC 1952 section 8, as a shift register fed one bit at a time, lowest bit of each byte first. *)
Definition crc_step (c : N) (b : bool) : N :=
  if xorb (N.odd c) b then N.lxor (N.shiftr c 1) 3988292384 else N.shiftr c 1.
Definition crc32 (data : list N) : N :=
  N.lxor (fold_left crc_step (bits_of_bytes data) 4294967295) 4294967295.

(** The four bytes of [v], least significant first. *)
Definition le32_bytes (v : N) : list N :=
  [v mod 256; (v / 256) mod 256; (v / 65536) mod 256; (v / 16777216) mod 256].

(** Extra bits that follow the length symbol of a match (RFC 1951 section 3.2.5). *)
Definition length_extra_bits (c : Code) : N :=
  match c with
  | Literal _ => 0
  | Reference r =>
      fold_left (fun acc row => let '(_, extra, base) := row in if base <=? ref_len r then extra else acc) length_table 0
  end.
