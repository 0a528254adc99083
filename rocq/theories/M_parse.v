(** Model of lib/src/parse.rs *)
From Verif Require Import Base M_bit M_lib M_code_tree M_huffman.
Local Open Scope N_scope.
Local Open Scope model_scope.

(** Number of bits the reader can still deliver; only used as fuel. *)
Definition br_bits_left (r : bit_reader) : nat :=
  (8 * List.length (rest (br_inner r)) + N.to_nat (br_remaining r))%nat.

Section Scan.
  Context {S : Type} (rb : M S bool).

  (** parse.rs:74-113; every iteration reads at least one bit, so [fuel] > bits left suffices.
      The accumulated [ret] vector is returned as a cons list. *)
  Fixpoint scan_loop (fuel : nat) (length : code_tree) (distance : option code_tree)
    : M S (list Code) :=
    match fuel with
    | O => lift Diverge
    | Datatypes.S fuel' =>
        sym <- decode_symbol rb length ;;
        if sym =? 256 then ret []
        else if sym <? 256 then
          more <- scan_loop fuel' length distance ;;
          ret (Literal (sym mod 256) :: more)
        else
          run <- decode_run_length rb sym ;;
          dist_sym <- match distance with
                      | Some dist_code => decode_symbol rb dist_code
                      | None => fail "length symbol encountered but no table"
                      end ;;
          dist <- decode_distance rb dist_sym ;;
          ensure ((1 <=? dist) && (dist <=? 32786)) "invalid distance" ;;;
          r <- lift (Ref_new dist run) ;;
          more <- scan_loop fuel' length distance ;;
          ret (Reference r :: more)
    end.
End Scan.

Definition scan_huffman_data (length : code_tree) (distance : option code_tree)
  : M bit_reader (list Code) :=
  fun r => scan_loop br_read_bit (S (br_bits_left r)) length distance r.

(** parse.rs:61-64: run [read_codes] through a [BitCollector] borrowing the reader *)
Definition read_codes_collected : M bit_reader ((code_tree * option code_tree) * bitvec) :=
  fun r =>
    match read_codes (bc_read_bit br_read_bit) (r, bv_new) with
    | (Ok trees, (r', data)) => (Ok (trees, data), r')
    | (Err e, (r', _)) => (Err e, r')
    | (Panic m, (r', _)) => (Panic m, r')
    | (Diverge, (r', _)) => (Diverge, r')
    end.

(** parse.rs:47-72 *)
Definition read_block : M bit_reader Block :=
  ty <- br_read_part 2 ;;
  if ty =? 0 then
    br_align ;;;
    data <- br_read_length_prefixed ;;
    ret (Uncompressed data)
  else if ty =? 1 then
    length <- lift FIXED_LENGTH_TREE ;;
    distance <- lift FIXED_DISTANCE_TREE ;;
    codes <- scan_huffman_data length (Some distance) ;;
    ret (FixedHuffman codes)
  else if ty =? 2 then
    r <- read_codes_collected ;;
    let '((length, distance), trees) := r in
    codes <- scan_huffman_data length distance ;;
    ret (DynamicHuffman trees codes)
  else if ty =? 3 then fail "reserved block type"
  else panic "unreachable".

(** parse.rs:22-25 *)
Record block_iter := mkBlockIter { bi_inner : bit_reader; bi_end : bool }.

(** parse.rs:15-20 *)
Definition parse_deflate (bytes : source) : block_iter := mkBlockIter (br_new bytes) false.

(** parse.rs:30-44.  [Ok None] is [None], [Ok (Some b)] is [Some(Ok(b))], [Err e] is [Some(Err(e))]. *)
Definition bi_next : M block_iter (option Block) :=
  fun it =>
    if bi_end it
    then match br_align (bi_inner it) with
         | (Ok _, r) => (Ok None, mkBlockIter r (bi_end it))
         | (Err e, r) => (Err e, mkBlockIter r (bi_end it))
         | (Panic m, r) => (Panic m, mkBlockIter r (bi_end it))
         | (Diverge, r) => (Diverge, mkBlockIter r (bi_end it))
         end
    else match br_read_bit (bi_inner it) with
         | (Ok e, r) =>
             match read_block r with
             | (Ok b, r') => (Ok (Some b), mkBlockIter r' e)
             | (Err er, r') => (Err er, mkBlockIter r' e)
             | (Panic m, r') => (Panic m, mkBlockIter r' e)
             | (Diverge, r') => (Diverge, mkBlockIter r' e)
             end
         | (Err e, r) => (Err e, mkBlockIter r (bi_end it))
         | (Panic m, r) => (Panic m, mkBlockIter r (bi_end it))
         | (Diverge, r) => (Diverge, mkBlockIter r (bi_end it))
         end.

(** [for block in parse_deflate(..) { block? }]: drain the iterator up to its end or first error,
    calling [next] at most [fuel] times. *)
Fixpoint bi_drain (fuel : nat) : M block_iter (list Block) :=
  match fuel with
  | O => lift Diverge
  | S fuel' =>
      o <- bi_next ;;
      match o with
      | None => ret []
      | Some b => bs <- bi_drain fuel' ;; ret (b :: bs)
      end
  end.

(** Draining a fresh iterator; every block takes at least three bits. *)
Definition parse_all (bytes : source) : outcome (list Block) * block_iter :=
  bi_drain (8 * List.length (rest bytes) + 2) (parse_deflate bytes).
