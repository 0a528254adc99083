(** The reading and writing code again, with every operation on Rust's machine integers made explicit, in a build with
    overflow checks and in a release build ([profile.release] in Cargo.toml leaves them off).  The model proper computes
    with unbounded numbers and explicit panics; C85 relates the two.  Comparisons, [as] casts, conversions, bitwise
    operations, divisions and ranges cannot overflow and are as in the model proper. *)
From Verif Require Import Base M_bit M_lib M_code_tree M_huffman M_circles M_gzip M_parse M_serialise M_dump M_rezippers.
Local Open Scope N_scope.
Local Open Scope model_scope.

(** ** Machine arithmetic: [w] bits, unsigned *)
Inductive build := Checked | Release.

(** An operation whose exact result does not fit panics, or wraps to [v]. *)
Definition overflow (bd : build) (m : string) (v : N) : outcome N :=
  match bd with Checked => Panic m | Release => Ok v end.
Definition add (bd : build) (w a b : N) : outcome N :=
  if a + b <? 2 ^ w then Ok (a + b) else overflow bd "attempt to add with overflow" ((a + b) mod 2 ^ w).
Definition sub (bd : build) (w a b : N) : outcome N :=
  if b <=? a then Ok (a - b) else overflow bd "attempt to subtract with overflow" ((2 ^ w + a - b) mod 2 ^ w).
Definition mul (bd : build) (w a b : N) : outcome N :=
  if a * b <? 2 ^ w then Ok (a * b) else overflow bd "attempt to multiply with overflow" ((a * b) mod 2 ^ w).
(** A shift by less than the width drops bits silently; by more it panics, or shifts by the amount modulo the width. *)
Definition shl (bd : build) (w a n : N) : outcome N :=
  if n <? w then Ok (N.shiftl a n mod 2 ^ w)
  else overflow bd "attempt to shift left with overflow" (N.shiftl a (n mod w) mod 2 ^ w).
Definition shr (bd : build) (w a n : N) : outcome N :=
  if n <? w then Ok (N.shiftr a n)
  else overflow bd "attempt to shift right with overflow" (N.shiftr a (n mod w)).

Notation u8 := 8 (only parsing).
Notation u16 := 16 (only parsing).
Notation usize := 64 (only parsing).

Section Build.
  Context (bd : build).

  (** ** bit.rs *)

  (** bit.rs:202-217 *)
  Definition mc_push (v : bitvec) (val : bool) : outcome bitvec :=
    let word := (bv_len v / WORD_SIZE)%nat in
    let bit := (bv_len v mod WORD_SIZE)%nat in
    len <-? add bd usize (N.of_nat (bv_len v)) 1 ;;
    bytes <-? (if Nat.leb (List.length (bv_bytes v)) word
               then if Nat.eqb word (List.length (bv_bytes v))
                    then Ok (bv_bytes v ++ [0])
                    else Panic "assert_eq!(word, self.bytes.len())"
               else Ok (bv_bytes v)) ;;
    bytes <-? (if val
               then w <-? get_idx bytes word ;;
                    m <-? shl bd u8 1 (N.of_nat bit) ;;
                    set_idx bytes word (N.lor w m)
               else Ok bytes) ;;
    Ok (mkBitVec bytes (N.to_nat len)).

  (** bit.rs:219-226 *)
  Definition mc_get (v : bitvec) (pos : nat) : outcome bool :=
    if Nat.ltb pos (bv_len v)
    then
      let word := (pos / WORD_SIZE)%nat in
      let bit := N.of_nat (pos mod WORD_SIZE)%nat in
      w <-? get_idx (bv_bytes v) word ;;
      m <-? shl bd u8 1 bit ;;
      m' <-? shl bd u8 1 bit ;;
      Ok (N.land w m =? m')
    else Panic "out of range".

  (** bit.rs:228-242 *)
  Definition mc_pop (v : bitvec) : outcome (option bool * bitvec) :=
    if Nat.eqb 0 (bv_len v) then Ok (None, v)
    else
      last <-? sub bd usize (N.of_nat (bv_len v)) 1 ;;
      answer <-? mc_get v (N.to_nat last) ;;
      len <-? sub bd usize (N.of_nat (bv_len v)) 1 ;;
      let bytes := if Nat.eqb (N.to_nat len mod WORD_SIZE) 0 then removelast (bv_bytes v) else bv_bytes v in
      Ok (Some answer, mkBitVec bytes (N.to_nat len)).

  (** bit.rs:265-269; the amount of the shift is an [i32], never negative *)
  Fixpoint mc_pop_byte_loop (poss : list nat) (ret : N) (v : bitvec) : outcome (N * bitvec) :=
    match poss with
    | [] => Ok (ret, v)
    | pos :: poss' =>
        p <-? mc_pop v ;;
        match p with
        | (Some b, v') =>
            ret' <-? (if (b : bool) then n <-? sub bd 31 7 (N.of_nat pos) ;; m <-? shl bd u8 1 n ;; Ok (N.lor ret m)
                      else Ok ret) ;;
            mc_pop_byte_loop poss' ret' v'
        | (None, _) => Panic "unwrap on None"
        end
    end.

  (** bit.rs:258-272 *)
  Definition mc_pop_byte (v : bitvec) : outcome (option N * bitvec) :=
    if Nat.ltb (bv_len v) 8 then Ok (None, v)
    else r <-? mc_pop_byte_loop (seq 0 8) 0 v ;;
         Ok (Some (fst r), snd r).

  (** bit.rs:313-324 *)
  Definition mc_si_next : M stack_iter (option bool) :=
    fun it =>
      if Nat.leb (bv_len (si_inner it)) (si_pos it)
      then if Nat.eqb (si_pos it) (bv_len (si_inner it))
           then (Ok None, it)
           else (Panic "assert_eq!(self.pos, self.inner.len())", it)
      else match mc_get (si_inner it) (si_pos it) with
           | Ok b =>
               match add bd usize (N.of_nat (si_pos it)) 1 with
               | Ok pos => (Ok (Some b), mkIter (si_inner it) (N.to_nat pos))
               | Err e => (Err e, it)
               | Panic m => (Panic m, it)
               | Diverge => (Diverge, it)
               end
           | Err e => (Err e, it)
           | Panic m => (Panic m, it)
           | Diverge => (Diverge, it)
           end.

  (** bit.rs:360-364 *)
  Definition mc_si_read_bit : M stack_iter bool :=
    o <- mc_si_next ;;
    match o with
    | Some b => ret b
    | None => panic "TODO: EOF"
    end.

  (** bit.rs:35-38 *)
  Definition mc_position : M bit_reader N :=
    fun r => if br_remaining r <=? 7
             then (d <-? sub bd u8 8 (br_remaining r) ;; Ok (d mod 8), r)
             else (Panic "assert!(self.remaining_bits <= 7)", r).

  (** bit.rs:40-58 *)
  Definition mc_read_bit : M bit_reader bool :=
    br_refill ;;;
    (fun r =>
       match (remaining <-? sub bd u8 (br_remaining r) 1 ;;
              n <-? sub bd u8 7 remaining ;;
              s <-? shr bd u8 (br_current r) n ;;
              let bit := 1 =? N.land s 1 in
              track <-? match br_track r with
                        | None => Ok None
                        | Some vec => vec' <-? mc_push vec bit ;; Ok (Some vec')
                        end ;;
              Ok (bit, mkReader (br_inner r) (br_current r) remaining track)) with
       | Ok (bit, r') => (Ok bit, r')
       | Err e => (Err e, r)
       | Panic m => (Panic m, r)
       | Diverge => (Diverge, r)
       end).

  (** bit.rs:63-65 *)
  Fixpoint mc_align_loop (fuel : nat) : M bit_reader unit :=
    match fuel with
    | O => lift Diverge
    | S fuel' =>
        p <- mc_position ;;
        if 0 =? p then ret tt
        else b <- mc_read_bit ;;
             ensure (negb b) "padding bits should always be empty" ;;;
             mc_align_loop fuel'
    end.

  (** bit.rs:60-67 *)
  Definition mc_align : M bit_reader unit := br_assert_untracked ;;; mc_align_loop 9.

  Section Source.
    Context {S : Type} (rb : M S bool).

    (** bit.rs:344-348 *)
    Fixpoint mc_read_part_loop (is : list nat) (res : N) : M S N :=
      match is with
      | [] => ret res
      | i :: is' =>
          b <- rb ;;
          res <- (if (b : bool) then m <- lift (shl bd u16 1 (N.of_nat i)) ;; ret (N.lor res m) else ret res) ;;
          mc_read_part_loop is' res
      end.

    (** bit.rs:340-351 *)
    Definition mc_read_part (bits : N) : M S N :=
      assert_ (bits <=? 16) "assert!(bits <= 16)" ;;;
      mc_read_part_loop (seq 0 (N.to_nat bits)) 0.

    (** bit.rs:384-390 *)
    Definition mc_bc_read_bit : M (S * bitvec) bool :=
      fun st =>
        match rb (fst st) with
        | (Ok bit, s') =>
            match mc_push (snd st) bit with
            | Ok data => (Ok bit, (s', data))
            | Err e => (Err e, (s', snd st))
            | Panic m => (Panic m, (s', snd st))
            | Diverge => (Diverge, (s', snd st))
            end
        | (Err e, s') => (Err e, (s', snd st))
        | (Panic m, s') => (Panic m, (s', snd st))
        | (Diverge, s') => (Diverge, (s', snd st))
        end.

    (** ** huffman.rs *)

    (** huffman.rs:48-51 *)
    Fixpoint mc_cl_loop (is : list nat) (lens : list N) : M S (list N) :=
      match is with
      | [] => ret lens
      | i :: is' =>
          pos <- lift (if Nat.even i then add bd usize 8 (N.of_nat (i / 2)) else sub bd usize 7 (N.of_nat (i / 2))) ;;
          v <- mc_read_part 3 ;;
          lens' <- lift (set_idx lens (N.to_nat pos) (v mod 256)) ;;
          mc_cl_loop is' lens'
      end.

    (** huffman.rs:61-96 *)
    Fixpoint mc_lens_loop (fuel : nat) (t : code_tree) (code_lens_len : nat)
             (i : nat) (run_val : option N) (run_len : N) (code_lens : list N)
      : M S (N * list N) :=
      match fuel with
      | O => lift Diverge
      | Datatypes.S fuel' =>
          let continue_ (i : nat) (run_val : option N) (run_len : N) (code_lens : list N) :=
            if Nat.leb code_lens_len i then ret (run_len, code_lens)
            else mc_lens_loop fuel' t code_lens_len i run_val run_len code_lens in
          if 0 <? run_len
          then match run_val with
               | Some val =>
                   code_lens' <- lift (set_idx code_lens i val) ;;
                   run_len' <- lift (sub bd u16 run_len 1) ;;
                   i' <- lift (add bd usize (N.of_nat i) 1) ;;
                   continue_ (N.to_nat i') run_val run_len' code_lens'
               | None => fail "invalid state"
               end
          else
            sym <- decode_symbol rb t ;;
            if sym <=? 15 then
              code_lens' <- lift (set_idx code_lens i (sym mod 256)) ;;
              i' <- lift (add bd usize (N.of_nat i) 1) ;;
              continue_ (N.to_nat i') (Some (sym mod 256)) run_len code_lens'
            else if sym =? 16 then
              ensure (match run_val with Some _ => true | None => false end) "no value to copy" ;;;
              n <- mc_read_part 2 ;;
              n' <- lift (add bd u16 n 3) ;;
              continue_ i run_val n' code_lens
            else if sym =? 17 then
              n <- mc_read_part 3 ;;
              n' <- lift (add bd u16 n 3) ;;
              continue_ i (Some 0) n' code_lens
            else if sym =? 18 then
              n <- mc_read_part 7 ;;
              n' <- lift (add bd u16 n 11) ;;
              continue_ i (Some 0) n' code_lens
            else panic "symbol out of range"
      end.

    (** huffman.rs:36-136; counting the lengths (huffman.rs:107-116) stays in [dist_tree_of]: an [i32] each, at most 32 *)
    Definition mc_read_codes : M S (code_tree * option code_tree) :=
      hlit <- mc_read_part 5 ;;
      num_lit_len_codes <- lift (add bd u16 hlit 257) ;;
      hdist <- mc_read_part 5 ;;
      num_distance_codes <- lift (add bd u16 hdist 1) ;;
      hclen <- mc_read_part 4 ;;
      num_code_len_codes <- lift (add bd u16 hclen 4) ;;
      let code_len_code_len := repeat 0 19 in
      a <- mc_read_part 3 ;; l <- lift (set_idx code_len_code_len 16 (a mod 256)) ;;
      a <- mc_read_part 3 ;; l <- lift (set_idx l 17 (a mod 256)) ;;
      a <- mc_read_part 3 ;; l <- lift (set_idx l 18 (a mod 256)) ;;
      a <- mc_read_part 3 ;; l <- lift (set_idx l 0 (a mod 256)) ;;
      more <- lift (sub bd usize num_code_len_codes 4) ;;
      code_len_code_len <- mc_cl_loop (seq 0 (N.to_nat more)) l ;;
      code_len_code <- lift (tree_new code_len_code_len) ;;
      code_lens_len <- lift (add bd usize num_lit_len_codes num_distance_codes) ;;
      let code_lens_len := N.to_nat code_lens_len in
      r <- mc_lens_loop (2 * code_lens_len + 1) code_len_code code_lens_len
             0 None 0 (repeat 0 code_lens_len) ;;
      let '(run_len, code_lens) := r in
      ensure (run_len =? 0) "run exceeds number of codes" ;;;
      lit_len_code <- lift (tree_new (firstn (N.to_nat num_lit_len_codes) code_lens)) ;;
      let dist_code_len := skipn (N.to_nat num_lit_len_codes) code_lens in
      if match dist_code_len with [x] => 0 =? x | _ => false end
      then ret (lit_len_code, None)
      else
        dist_tree <- lift (dist_tree_of dist_code_len) ;;
        ret (lit_len_code, Some dist_tree).

    (** huffman.rs:168-192 *)
    Definition mc_decode_run_length (sym : N) : M S N :=
      ensure ((257 <=? sym) && (sym <=? 287)) "decompressor bug" ;;;
      if sym <=? 264 then lift (sub bd u16 sym 254)
      else if sym <=? 284 then
        d <- lift (sub bd u16 sym 261) ;;
        let extra_bits := (d / 4) mod 256 in
        assert_ (extra_bits <? 6) "assert!(extra_bits < 6)" ;;;
        h <- lift (sub bd u16 sym 265) ;;
        h4 <- lift (add bd u8 ((h mod 256) mod 4) 4) ;;
        high_part <- lift (shl bd u8 h4 extra_bits) ;;
        low <- mc_read_part extra_bits ;;
        let low_part := low mod 256 in
        s <- lift (add bd u16 high_part low_part) ;;
        lift (add bd u16 s 3)
      else if sym =? 285 then ret 258
      else fail "reserved symbol".

    (** huffman.rs:220-231 *)
    Definition mc_decode_distance (sym : N) : M S N :=
      if sym <=? 3 then lift (add bd u16 sym 1)
      else if sym <=? 29 then
        n <- lift (sub bd u16 (sym / 2) 1) ;;
        let num_extra_bits := n mod 256 in
        b <- lift (add bd u16 (sym mod 2) 2) ;;
        base <- lift (shl bd u16 b num_extra_bits) ;;
        base1 <- lift (add bd u16 base 1) ;;
        e <- mc_read_part num_extra_bits ;;
        lift (add bd u16 base1 e)
      else if sym <=? 31 then fail "reserved distance symbol"
      else fail "invalid distance symbol".
  End Source.

  (** ** lib.rs *)

  (** lib.rs:121-130 *)
  Definition mc_Ref_new (dist run : N) : outcome Ref :=
    if 3 <=? run then
      if run <=? 258 then
        if 1 <=? dist then
          if dist <=? 32768 then r <-? sub bd u16 run 3 ;; Ok (mkRef dist (r mod 256))
          else Panic "assert_le!(dist, 32_768)"
        else Panic "assert_ge!(dist, 1)"
      else Panic "assert_le!(run, 258)"
    else Panic "assert_ge!(run, 3)".

  (** lib.rs:133-135 *)
  Definition mc_run (r : Ref) : outcome N := add bd u16 (r_run_minus_3 r) 3.

  (** ** parse.rs *)
  Section Scan.
    Context {S : Type} (rb : M S bool).

    (** parse.rs:74-113 *)
    Fixpoint mc_scan_loop (fuel : nat) (length : code_tree) (distance : option code_tree)
      : M S (list Code) :=
      match fuel with
      | O => lift Diverge
      | Datatypes.S fuel' =>
          sym <- decode_symbol rb length ;;
          if sym =? 256 then ret []
          else if sym <? 256 then
            more <- mc_scan_loop fuel' length distance ;;
            ret (Literal (sym mod 256) :: more)
          else
            run <- mc_decode_run_length rb sym ;;
            dist_sym <- match distance with
                        | Some dist_code => decode_symbol rb dist_code
                        | None => fail "length symbol encountered but no table"
                        end ;;
            dist <- mc_decode_distance rb dist_sym ;;
            ensure ((1 <=? dist) && (dist <=? 32786)) "invalid distance" ;;;
            r <- lift (mc_Ref_new dist run) ;;
            more <- mc_scan_loop fuel' length distance ;;
            ret (Reference r :: more)
      end.
  End Scan.

  (** bit.rs:93-101 *)
  Definition mc_assert_aligned : M bit_reader unit :=
    p <- mc_position ;;
    assert_ (0 =? p) "assert_eq!(0, self.position())".
  Definition mc_read_aligned_u16 : M bit_reader N :=
    mc_assert_aligned ;;;
    br_assert_untracked ;;;
    buf <- br_inner_read_exact 2 ;;
    high <- lift (shl bd u16 (nth 1 buf 0) 8) ;;
    ret (N.lor high (nth 0 buf 0)).

  (** bit.rs:73-91 *)
  Definition mc_read_length_prefixed : M bit_reader (list N) :=
    mc_assert_aligned ;;;
    br_assert_untracked ;;;
    len <- mc_read_aligned_u16 ;;
    ones_complement <- mc_read_aligned_u16 ;;
    ensure (N.lxor len 65535 =? ones_complement) "uncompressed block length validation failed" ;;;
    br_inner_read_exact (N.to_nat len).

  Definition mc_scan_huffman_data (length : code_tree) (distance : option code_tree) : M bit_reader (list Code) :=
    fun r => mc_scan_loop mc_read_bit (S (br_bits_left r)) length distance r.

  (** parse.rs:61-64 *)
  Definition mc_read_codes_collected : M bit_reader ((code_tree * option code_tree) * bitvec) :=
    fun r =>
      match mc_read_codes (mc_bc_read_bit mc_read_bit) (r, bv_new) with
      | (Ok trees, (r', data)) => (Ok (trees, data), r')
      | (Err e, (r', _)) => (Err e, r')
      | (Panic m, (r', _)) => (Panic m, r')
      | (Diverge, (r', _)) => (Diverge, r')
      end.

  (** parse.rs:47-72; the fixed tables are built without arithmetic *)
  Definition mc_read_block : M bit_reader Block :=
    ty <- mc_read_part mc_read_bit 2 ;;
    if ty =? 0 then
      mc_align ;;;
      data <- mc_read_length_prefixed ;;
      ret (Uncompressed data)
    else if ty =? 1 then
      length <- lift FIXED_LENGTH_TREE ;;
      distance <- lift FIXED_DISTANCE_TREE ;;
      codes <- mc_scan_huffman_data length (Some distance) ;;
      ret (FixedHuffman codes)
    else if ty =? 2 then
      r <- mc_read_codes_collected ;;
      let '((length, distance), trees) := r in
      codes <- mc_scan_huffman_data length distance ;;
      ret (DynamicHuffman trees codes)
    else if ty =? 3 then fail "reserved block type"
    else panic "unreachable".

  (** parse.rs:30-44 *)
  Definition mc_next : M block_iter (option Block) :=
    fun it =>
      if bi_end it
      then match mc_align (bi_inner it) with
           | (Ok _, r) => (Ok None, mkBlockIter r (bi_end it))
           | (Err e, r) => (Err e, mkBlockIter r (bi_end it))
           | (Panic m, r) => (Panic m, mkBlockIter r (bi_end it))
           | (Diverge, r) => (Diverge, mkBlockIter r (bi_end it))
           end
      else match mc_read_bit (bi_inner it) with
           | (Ok e, r) =>
               match mc_read_block r with
               | (Ok b, r') => (Ok (Some b), mkBlockIter r' e)
               | (Err er, r') => (Err er, mkBlockIter r' e)
               | (Panic m, r') => (Panic m, mkBlockIter r' e)
               | (Diverge, r') => (Diverge, mkBlockIter r' e)
               end
           | (Err e, r) => (Err e, mkBlockIter r (bi_end it))
           | (Panic m, r) => (Panic m, mkBlockIter r (bi_end it))
           | (Diverge, r) => (Diverge, mkBlockIter r (bi_end it))
           end.

  (** ** gzip.rs *)

  (** gzip.rs:54-56 *)
  Definition mc_has_bit (val bit : N) : outcome bool :=
    m <-? shl bd u8 1 bit ;; m' <-? shl bd u8 1 bit ;; Ok (N.land val m =? m').

  (** gzip.rs:22-31 *)
  Definition mc_read_extra (whole : list N) : M source (list N) :=
    buf <- read_exact 2 ;;
    high <- lift (shl bd usize (nth 1 buf 0) 8) ;;
    let len := N.lor high (nth 0 buf 0) in
    extra <- read_exact (N.to_nat len) ;;
    ret (whole ++ buf ++ extra).

  (** gzip.rs:6-51 *)
  Definition mc_discard_header : M source (list N) :=
    header <- read_exact 10 ;;
    let whole := header in
    ensure ((31 =? nth 0 header 0) && (139 =? nth 1 header 0)) "invalid magic" ;;;
    ensure (8 =? nth 2 header 0) "unsupported compression method" ;;;
    let flags := nth 3 header 0 in
    ensure (0 =? N.land flags 224) "reserved flags bits set" ;;;
    b <- lift (mc_has_bit flags 2) ;;
    whole <- (if (b : bool) then mc_read_extra whole else ret whole) ;;
    b <- lift (mc_has_bit flags 3) ;;
    whole <- (if (b : bool) then read_null_terminated whole else ret whole) ;;
    b <- lift (mc_has_bit flags 4) ;;
    whole <- (if (b : bool) then read_null_terminated whole else ret whole) ;;
    b <- lift (mc_has_bit flags 1) ;;
    (if (b : bool) then read_hcrc whole else ret whole).

  (** ** circles.rs *)

  (** circles.rs:28-35 *)
  Definition mc_cb_push (b : circ) (val : N) : outcome circ :=
    data <-? set_idx (cb_data b) (cb_idx b) val ;;
    next <-? add bd usize (N.of_nat (cb_idx b)) 1 ;;
    let len := List.length data in
    idx <-? (if Nat.eqb len 0 then Panic "attempt to calculate the remainder with a divisor of zero"
             else Ok (N.to_nat next mod len)%nat) ;;
    if cb_valid b <? N.of_nat len
    then valid <-? add bd u16 (cb_valid b) 1 ;; Ok (mkCirc data idx valid)
    else Ok (mkCirc data idx (cb_valid b)).

  (** circles.rs:37-43 *)
  Fixpoint mc_cb_extend (b : circ) (val : list N) : outcome circ :=
    match val with
    | [] => Ok b
    | byte :: val' => b' <-? mc_cb_push b byte ;; mc_cb_extend b' val'
    end.

  (** circles.rs:62-67 *)
  Fixpoint mc_copy_loop (n : nat) (read_from : nat) : M (circ * sink) unit :=
    match n with
    | O => ret tt
    | S n' =>
        fun st =>
          let '(b, out) := st in
          match (byte <-? get_idx (cb_data b) read_from ;;
                 next <-? add bd usize (N.of_nat read_from) 1 ;;
                 if Nat.eqb (List.length (cb_data b)) 0
                 then Panic "attempt to calculate the remainder with a divisor of zero"
                 else Ok (byte, (N.to_nat next mod List.length (cb_data b))%nat)) with
          | Ok (byte, read_from') =>
              match write_all [byte] out with
              | (Ok _, out') =>
                  match mc_cb_push b byte with
                  | Ok b' => mc_copy_loop n' read_from' (b', out')
                  | Err e => (Err e, (b, out'))
                  | Panic m => (Panic m, (b, out'))
                  | Diverge => (Diverge, (b, out'))
                  end
              | (Err e, out') => (Err e, (b, out'))
              | (Panic m, out') => (Panic m, (b, out'))
              | (Diverge, out') => (Diverge, (b, out'))
              end
          | Err e => (Err e, st)
          | Panic m => (Panic m, st)
          | Diverge => (Diverge, st)
          end
    end.

  (** circles.rs:46-70; the arithmetic of circles.rs:56-60 is explicitly wrapping *)
  Definition mc_copy (dist len : N) : M (circ * sink) unit :=
    fun st =>
      if (0 <? dist) && (dist <=? cb_valid (fst st))
      then (read_from <- lift (cb_read_from (fst st) dist) ;;
            mc_copy_loop (N.to_nat len) read_from) st
      else (Err (EMsg "dist must fit"), st).

  (** ** serialise.rs: decompression *)

  (** serialise.rs:42-52 *)
  Fixpoint mc_decompressed_codes (codes : list Code) : M (circ * sink) unit :=
    match codes with
    | [] => ret tt
    | Literal byte :: codes' =>
        (fun st =>
           match mc_cb_push (fst st) byte with
           | Ok d =>
               let '(o, out) := write_all [byte] (snd st) in (o, (d, out))
           | Err e => (Err e, st)
           | Panic m => (Panic m, st)
           | Diverge => (Diverge, st)
           end) ;;;
        mc_decompressed_codes codes'
    | Reference r :: codes' =>
        run <- lift (mc_run r) ;;
        mc_copy (r_dist r) run ;;;
        mc_decompressed_codes codes'
    end.

  (** serialise.rs:15-33 *)
  Definition mc_decompressed_block (block : Block) : M (circ * sink) unit :=
    match block with
    | Uncompressed data =>
        fun st =>
          match mc_cb_extend (fst st) data with
          | Ok d => let '(o, out) := write_all data (snd st) in (o, (d, out))
          | Err e => (Err e, st)
          | Panic m => (Panic m, st)
          | Diverge => (Diverge, st)
          end
    | FixedHuffman codes | DynamicHuffman _ codes => mc_decompressed_codes codes
    end.

  (** ** The commands *)

  (** cat.rs:16-18 *)
  Fixpoint mc_cat_loop (fuel : nat) (it : block_iter) : M (circ * sink) unit :=
    match fuel with
    | O => lift Diverge
    | S fuel' =>
        match mc_next it with
        | (Ok None, _) => ret tt
        | (Ok (Some block), it') => mc_decompressed_block block ;;; mc_cat_loop fuel' it'
        | (Err e, _) => lift (Err e)
        | (Panic m, _) => panic m
        | (Diverge, _) => lift Diverge
        end
    end.

  (** cat.rs:8-21 *)
  Definition mc_cat_run (reader : source) (stdout : sink) : outcome unit * sink :=
    match mc_discard_header reader with
    | (Ok _, reader') =>
        match cb_new with
        | Ok dictionary =>
            let '(o, (_, out)) :=
              mc_cat_loop (8 * List.length (rest reader') + 2) (parse_deflate reader') (dictionary, stdout) in
            (o, out)
        | Err e => (Err e, stdout)
        | Panic m => (Panic m, stdout)
        | Diverge => (Diverge, stdout)
        end
    | (Err e, _) => (Err e, stdout)
    | (Panic m, _) => (Panic m, stdout)
    | (Diverge, _) => (Diverge, stdout)
    end.

  (** dump.rs:34-51 *)
  Fixpoint mc_dump_print (codes : list Code) : list dump_line * outcome unit :=
    match codes with
    | [] => ([], Ok tt)
    | Literal chr :: codes' => let '(more, o) := mc_dump_print codes' in (DLit chr :: more, o)
    | Reference r :: codes' =>
        match mc_run r with
        | Ok run => let '(more, o) := mc_dump_print codes' in (DBackref (r_dist r) run :: more, o)
        | Err e => ([], Err e)
        | Panic m => ([], Panic m)
        | Diverge => ([], Diverge)
        end
    end.

  (** dump.rs:14-28 *)
  Definition mc_dump_block (id : nat) (block : Block) : list dump_line * outcome unit :=
    match block with
    | Uncompressed data => ([DBlock id; DStored (List.length data)], Ok tt)
    | FixedHuffman codes => let '(more, o) := mc_dump_print codes in (DBlock id :: DFixed :: more, o)
    | DynamicHuffman trees codes => let '(more, o) := mc_dump_print codes in (DBlock id :: DDynamic trees :: more, o)
    end.

  (** dump.rs:11-29 *)
  Fixpoint mc_dump_loop (fuel : nat) (id : nat) (it : block_iter) : list dump_line * outcome unit :=
    match fuel with
    | O => ([], Diverge)
    | S fuel' =>
        match mc_next it with
        | (Ok None, _) => ([], Ok tt)
        | (Ok (Some block), it') =>
            match mc_dump_block id block with
            | (lines, Ok _) => let '(more, o) := mc_dump_loop fuel' (S id) it' in (lines ++ more, o)
            | stopped => stopped
            end
        | (Err e, _) => ([], Err e)
        | (Panic m, _) => ([], Panic m)
        | (Diverge, _) => ([], Diverge)
        end
    end.

  (** dump.rs:9-32 *)
  Definition mc_dump_run (reader : source) : list dump_line * outcome unit :=
    match mc_discard_header reader with
    | (Ok _, reader') => mc_dump_loop (8 * List.length (rest reader') + 2) 0 (parse_deflate reader')
    | (Err e, _) => ([], Err e)
    | (Panic m, _) => ([], Panic m)
    | (Diverge, _) => ([], Diverge)
    end.

  (** zero.rs:54-98: past the header all arithmetic is explicitly wrapping (zero.rs:28, 43-44, 78) *)
  Definition mc_zero_run (inflate : source -> byte_iter) (reader : source) (stdout : sink)
    : outcome unit * sink :=
    match mc_discard_header reader with
    | (Ok orig_header, reader') =>
        let bytes := inflate reader' in
        if is_nil bytes then (Panic "TODO: can't deal with an empty file", stdout)
        else
          let m : M (byte_iter * sink) unit :=
            let put bs := zoom snd (fun s (st : byte_iter * sink) => (fst st, s)) (write_all bs) in
            put orig_header ;;;
            r <- zero_loop (S (List.length bytes)) 0 crc_digest ;;
            let '(data_len, data_csum) := r in
            put (le_bytes 4 (crc_finalize data_csum)) ;;;
            put (le_bytes 4 data_len) in
          let '(o, (_, out)) := m (bytes, stdout) in (o, out)
    | (Err e, _) => (Err e, stdout)
    | (Panic m, _) => (Panic m, stdout)
    | (Diverge, _) => (Diverge, stdout)
    end.

  (** ** Writing *)

  (** bit.rs:120-128 *)
  Definition mc_write_bit (bit : bool) : M bit_writer unit :=
    bw_lift_current (fun v => v' <-? mc_push v bit ;; Ok (tt, v')) ;;;
    (fun w =>
       if Nat.leb 8 (bv_len (bw_current w))
       then if Nat.eqb 8 (bv_len (bw_current w))
            then (o <- bw_lift_current mc_pop_byte ;;
                  match o with
                  | Some byte => bw_inner_write_all [byte]
                  | None => panic "unwrap on None"
                  end) w
            else (Panic "assert_eq!(8, self.current.len())", w)
       else (Ok tt, w)).

  (** bit.rs:131-133 *)
  Fixpoint mc_write_bits_val_loop (is : list nat) (val : N) : M bit_writer unit :=
    match is with
    | [] => ret tt
    | i :: is' =>
        m <- lift (shl bd u16 1 (N.of_nat i)) ;;
        mc_write_bit (negb (N.land val m =? 0)) ;;;
        mc_write_bits_val_loop is' val
    end.

  (** bit.rs:130-135 *)
  Definition mc_write_bits_val (bits val : N) : M bit_writer unit :=
    mc_write_bits_val_loop (seq 0 (N.to_nat bits)) val.

  (** bit.rs:137-142 *)
  Fixpoint mc_bw_align_loop (fuel : nat) : M bit_writer unit :=
    match fuel with
    | O => lift Diverge
    | S fuel' =>
        e <- bw_lift_current (fun v => e <-? bv_is_empty v ;; Ok (e, v)) ;;
        if (e : bool) then ret tt
        else mc_write_bit false ;;; mc_bw_align_loop fuel'
    end.
  Definition mc_bw_align : M bit_writer unit := mc_bw_align_loop 9.

  (** bit.rs:145-147 *)
  Fixpoint mc_write_iter (n : nat) (it : stack_iter) : M bit_writer unit :=
    match n with
    | O => lift Diverge
    | S n' =>
        match mc_si_next it with
        | (Ok (Some b), it') => mc_write_bit b ;;; mc_write_iter n' it'
        | (Ok None, _) => ret tt
        | (Err e, _) => lift (Err e)
        | (Panic m, _) => panic m
        | (Diverge, _) => lift Diverge
        end
    end.
  Definition mc_write_vec (v : bitvec) : M bit_writer unit := mc_write_iter (S (bv_len v)) (bv_iter v).

  (** bit.rs:164-170 *)
  Definition mc_write_aligned_u16 (val : N) : M bit_writer unit :=
    high <- lift (shr bd u16 val 8) ;;
    bw_inner_write_all [high; N.land val 255].

  (** bit.rs:151-162 *)
  Definition mc_write_length_prefixed (data : list N) : M bit_writer unit :=
    mc_bw_align ;;;
    let len := N.of_nat (List.length data) in
    ensure (len <=? 65535) "data too long to store" ;;;
    mc_write_aligned_u16 len ;;;
    mc_write_aligned_u16 (N.lxor len 65535) ;;;
    bw_inner_write_all data.

  (** code_tree.rs:136-140, 123-134 *)
  Fixpoint mc_store_code (into : list (option bitvec)) (prefix : bitvec) (n : node)
    : outcome (list (option bitvec)) :=
    match n with
    | Leaf sym =>
        cur <-? get_idx into (N.to_nat sym) ;;
        match cur with
        | None => set_idx into (N.to_nat sym) (Some prefix)
        | Some _ => Panic "duplicate code in tree"
        end
    | Internal lft rgt =>
        p0 <-? mc_push prefix false ;;
        into <-? mc_store_code into p0 lft ;;
        p1 <-? mc_push prefix true ;;
        mc_store_code into p1 rgt
    end.

  (** code_tree.rs:71-78 *)
  Definition mc_invert (t : code_tree) : outcome (list (option bitvec)) :=
    let into := repeat None 288 in
    p0 <-? mc_push bv_new false ;;
    into <-? mc_store_code into p0 (ct_left t) ;;
    p1 <-? mc_push bv_new true ;;
    mc_store_code into p1 (ct_right t).

  (** huffman.rs:138-149 *)
  Definition mc_encode_run_length (length : N) : outcome N :=
    if (3 <=? length) && (length <=? 10) then s <-? add bd u16 257 length ;; sub bd u16 s 3
    else if (11 <=? length) && (length <=? 18) then d <-? sub bd u16 length 11 ;; add bd u16 265 (d / 2)
    else if (19 <=? length) && (length <=? 34) then d <-? sub bd u16 length 19 ;; add bd u16 269 (d / 4)
    else if (35 <=? length) && (length <=? 66) then d <-? sub bd u16 length 35 ;; add bd u16 273 (d / 8)
    else if (67 <=? length) && (length <=? 130) then d <-? sub bd u16 length 67 ;; add bd u16 277 (d / 16)
    else if (131 <=? length) && (length <=? 257) then d <-? sub bd u16 length 131 ;; add bd u16 281 (d / 32)
    else if length =? 258 then Ok 285
    else Panic "insane run length".

  (** huffman.rs:155-165 *)
  Definition mc_extra_run_length (length : N) : outcome (option (N * N)) :=
    if ((3 <=? length) && (length <=? 10)) || (length =? 258) then Ok None
    else if (11 <=? length) && (length <=? 18) then d <-? sub bd u16 length 11 ;; Ok (Some (1, d mod 2))
    else if (19 <=? length) && (length <=? 34) then d <-? sub bd u16 length 19 ;; Ok (Some (2, d mod 4))
    else if (35 <=? length) && (length <=? 66) then d <-? sub bd u16 length 35 ;; Ok (Some (3, d mod 8))
    else if (67 <=? length) && (length <=? 130) then d <-? sub bd u16 length 67 ;; Ok (Some (4, d mod 16))
    else if (131 <=? length) && (length <=? 257) then d <-? sub bd u16 length 131 ;; Ok (Some (5, d mod 32))
    else Panic "insane run length".

  (** huffman.rs:203-207, at most [fuel] iterations *)
  Fixpoint mc_distance_loop (fuel : nat) (distance extra_bits code base : N) : outcome (N * N * N) :=
    match fuel with
    | O => Diverge
    | S fuel' =>
        b2 <-? mul bd u16 base 2 ;;
        if b2 <? distance
        then extra_bits' <-? add bd u8 extra_bits 1 ;;
             code' <-? add bd u8 code 2 ;;
             base' <-? mul bd u16 base 2 ;;
             mc_distance_loop fuel' distance extra_bits' code' base'
        else Ok (extra_bits, code, base)
    end.

  (** huffman.rs:195-218; [fuel] iterations of the loop *)
  Definition mc_huff_distance (fuel : nat) (distance : N) : outcome (option (N * N * N)) :=
    if distance <=? 4 then
      c <-? sub bd u8 (distance mod 256) 1 ;; Ok (Some (c, 0, 0))
    else
      r <-? mc_distance_loop fuel distance 1 4 4 ;;
      let '(extra_bits, code, base) := r in
      let half := base / 2 in
      d <-? sub bd u16 distance base ;;
      delta <-? sub bd u16 d 1 ;;
      if half =? 0 then Panic "attempt to calculate the remainder with a divisor of zero" else
      top <-? add bd u16 base half ;;
      if distance <=? top
      then Ok (Some (code, extra_bits, delta mod half))
      else code' <-? add bd u8 code 1 ;; Ok (Some (code', extra_bits, delta mod half)).

  (** serialise.rs:170-186 *)
  Definition mc_encode_run (length_tree : list (option bitvec)) (run : N) : M bit_writer unit :=
    sym <- lift (mc_encode_run_length run) ;;
    o <- lift (get_idx length_tree (N.to_nat sym)) ;;
    v <- lift (unwrap o) ;;
    mc_write_vec v ;;;
    x <- lift (mc_extra_run_length run) ;;
    match x with
    | Some (bits, val) => mc_write_bits_val bits val
    | None => ret tt
    end.

  (** serialise.rs:188-206 *)
  Definition mc_encode_distance (fuel : nat) (tree : option (list (option bitvec))) (dist : N) : M bit_writer unit :=
    x <- lift (mc_huff_distance fuel dist) ;;
    match x with
    | Some (code, bits, val) =>
        match tree with
        | None => fail "reference but not distance tree"
        | Some distance_tree =>
            o <- lift (get_idx distance_tree (N.to_nat code)) ;;
            v <- lift (unwrap o) ;;
            mc_write_vec v ;;;
            if 0 <? bits then mc_write_bits_val bits val else ret tt
        end
    | None => ret tt
    end.

  (** serialise.rs:148-162, one iteration *)
  Definition mc_compressed_code (fuel : nat) (length_tree : list (option bitvec))
             (distance_tree : option (list (option bitvec))) (c : Code) : M bit_writer unit :=
    match c with
    | Literal byte =>
        o <- lift (get_idx length_tree (N.to_nat byte)) ;;
        match o with
        | Some v => mc_write_vec v
        | None => fail "invalid literal"
        end
    | Reference r =>
        run <- lift (mc_run r) ;;
        mc_encode_run length_tree run ;;;
        mc_encode_distance fuel distance_tree (r_dist r)
    end.

  Fixpoint mc_codes_loop (fuel : nat) (length_tree : list (option bitvec))
           (distance_tree : option (list (option bitvec))) (codes : list Code) : M bit_writer unit :=
    match codes with
    | [] => ret tt
    | c :: codes' =>
        mc_compressed_code fuel length_tree distance_tree c ;;;
        mc_codes_loop fuel length_tree distance_tree codes'
    end.

  Definition mc_invert_opt (t : option code_tree) : outcome (option (list (option bitvec))) :=
    match t with
    | None => Ok None
    | Some tree => l <-? mc_invert tree ;; Ok (Some l)
    end.

  (** serialise.rs:135-168 *)
  Definition mc_compressed_codes (fuel : nat) (length_tree : code_tree) (distance_tree : option code_tree)
             (codes : list Code) : M bit_writer unit :=
    length_tree <- lift (mc_invert length_tree) ;;
    distance_tree <- lift (mc_invert_opt distance_tree) ;;
    assert_ (Nat.ltb 256 (List.length length_tree)) "assert!(length_tree.len() > 256)" ;;;
    mc_codes_loop fuel length_tree distance_tree codes ;;;
    o <- lift (get_idx length_tree 256) ;;
    v <- lift (unwrap o) ;;
    mc_write_vec v.

  (** serialise.rs:57-85; [fuel] iterations of the loop of [encode_distance] *)
  Definition mc_compressed_block (fuel : nat) (block : Block) : M bit_writer unit :=
    match block with
    | Uncompressed data =>
        mc_write_bits_val 2 0 ;;;
        mc_write_length_prefixed data
    | FixedHuffman codes =>
        mc_write_bits_val 2 1 ;;;
        l <- lift FIXED_LENGTH_TREE ;;
        d <- lift FIXED_DISTANCE_TREE ;;
        mc_compressed_codes fuel l (Some d) codes
    | DynamicHuffman trees codes =>
        mc_write_bits_val 2 2 ;;;
        mc_write_vec trees ;;;
        r <- lift (fst (mc_read_codes mc_si_read_bit (bv_iter trees))) ;;
        let '(length, distance) := r in
        mc_compressed_codes fuel length distance codes
    end.

  (** serialise.rs:112-132 *)
  Definition mc_length (fuel : nat) (ls : Lengths) (c : Code) : outcome (option N) :=
    match c with
    | Literal byte => get_idx (ls_length ls) (N.to_nat byte)
    | Reference r =>
        run <-? mc_run r ;;
        run_symbol <-? mc_encode_run_length run ;;
        o <-? get_idx (ls_length ls) (N.to_nat run_symbol) ;;
        match o with
        | None => Ok None
        | Some run_symbol_len =>
            x <-? mc_huff_distance fuel (r_dist r) ;;
            match x with
            | None => Panic "called `Option::unwrap()` on a `None` value"
            | Some (code, bit_count, _) =>
                o <-? get_idx (ls_distance ls) (N.to_nat code) ;;
                match o with
                | None => Ok None
                | Some distance_symbol_len =>
                    s <-? add bd u8 run_symbol_len distance_symbol_len ;;
                    total <-? add bd u8 s bit_count ;;
                    Ok (Some total)
                end
            end
        end
    end.
End Build.
