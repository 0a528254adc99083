(** Model of lib/src/huffman.rs *)
From Verif Require Import Base M_bit M_code_tree.
Local Open Scope N_scope.
Local Open Scope model_scope.

(** huffman.rs:15-28 *)
Definition fixed_length_lens : list N :=
  repeat 8 144 ++ repeat 9 112 ++ repeat 7 24 ++ repeat 8 8.

(** huffman.rs:30 ([expect] on [Err] would panic) *)
Definition expect {A} (m : string) (x : outcome A) : outcome A :=
  match x with
  | Err _ => Panic m
  | _ => x
  end.
Definition FIXED_LENGTH_TREE : outcome code_tree :=
  expect "static data is valid" (tree_new fixed_length_lens).

(** huffman.rs:32-33 *)
Definition FIXED_DISTANCE_TREE : outcome code_tree :=
  expect "static data is valid" (tree_new (repeat 5 32)).

Section ReadCodes.
  Context {S : Type} (rb : M S bool).

  (** huffman.rs:48-51: the loop over [i in 0..num-4]. *)
  Fixpoint read_cl_loop (is : list nat) (lens : list N) : M S (list N) :=
    match is with
    | [] => ret lens
    | i :: is' =>
        let pos := if Nat.even i then (8 + i / 2)%nat else (7 - i / 2)%nat in
        v <- read_part rb 3 ;;
        lens' <- lift (set_idx lens pos (v mod 256)) ;;
        read_cl_loop is' lens'
    end.

  (** huffman.rs:61-96: the run-length loop.  State: position [i], [run_val], [run_len], the
      table being filled.  Each iteration advances [i] or is followed by one that does, so
      [fuel = 2 * code_lens_len + 1] iterations suffice. *)
  Fixpoint read_lens_loop (fuel : nat) (t : code_tree) (code_lens_len : nat)
           (i : nat) (run_val : option N) (run_len : N) (code_lens : list N)
    : M S (N * list N) :=
    match fuel with
    | O => lift Diverge
    | Datatypes.S fuel' =>
        let continue_ (i : nat) (run_val : option N) (run_len : N) (code_lens : list N) :=
          if Nat.leb code_lens_len i then ret (run_len, code_lens)
          else read_lens_loop fuel' t code_lens_len i run_val run_len code_lens in
        if 0 <? run_len
        then match run_val with
             | Some val =>
                 code_lens' <- lift (set_idx code_lens i val) ;;
                 continue_ (i + 1)%nat run_val (run_len - 1) code_lens'
             | None => fail "invalid state"
             end
        else
          sym <- decode_symbol rb t ;;
          if sym <=? 15 then
            code_lens' <- lift (set_idx code_lens i (sym mod 256)) ;;
            continue_ (i + 1)%nat (Some (sym mod 256)) run_len code_lens'
          else if sym =? 16 then
            ensure (match run_val with Some _ => true | None => false end) "no value to copy" ;;;
            n <- read_part rb 2 ;;
            continue_ i run_val (n + 3) code_lens
          else if sym =? 17 then
            n <- read_part rb 3 ;;
            continue_ i (Some 0) (n + 3) code_lens
          else if sym =? 18 then
            n <- read_part rb 7 ;;
            continue_ i (Some 0) (n + 11) code_lens
          else panic "symbol out of range"
    end.

  (** huffman.rs:107-133: choosing the distance table. *)
  Definition dist_tree_of (dist_code_len : list N) : outcome code_tree :=
    let one_count := List.length (filter (fun x => x =? 1) dist_code_len) in
    let other_positive_count := List.length (filter (fun x => 1 <? x) dist_code_len) in
    if Nat.eqb 1 one_count && Nat.eqb 0 other_positive_count
    then
      (* [new_lens = [0; 32]]; copy at most 31; dummy code at 31 *)
      let to_copy := Nat.min (List.length dist_code_len) 31 in
      tree_new (firstn to_copy dist_code_len ++ repeat 0 (31 - to_copy) ++ [1])
    else tree_new dist_code_len.

  (** huffman.rs:36-136 *)
  Definition read_codes : M S (code_tree * option code_tree) :=
    hlit <- read_part rb 5 ;;
    let num_lit_len_codes := hlit + 257 in
    hdist <- read_part rb 5 ;;
    let num_distance_codes := hdist + 1 in
    hclen <- read_part rb 4 ;;
    let num_code_len_codes := hclen + 4 in
    let code_len_code_len := repeat 0 19 in
    a <- read_part rb 3 ;; l <- lift (set_idx code_len_code_len 16 (a mod 256)) ;;
    a <- read_part rb 3 ;; l <- lift (set_idx l 17 (a mod 256)) ;;
    a <- read_part rb 3 ;; l <- lift (set_idx l 18 (a mod 256)) ;;
    a <- read_part rb 3 ;; l <- lift (set_idx l 0 (a mod 256)) ;;
    code_len_code_len <- read_cl_loop (seq 0 (N.to_nat num_code_len_codes - 4)) l ;;
    code_len_code <- lift (tree_new code_len_code_len) ;;
    let code_lens_len := (N.to_nat num_lit_len_codes + N.to_nat num_distance_codes)%nat in
    r <- read_lens_loop (2 * code_lens_len + 1) code_len_code code_lens_len
           0 None 0 (repeat 0 code_lens_len) ;;
    let '(run_len, code_lens) := r in
    ensure (run_len =? 0) "run exceeds number of codes" ;;;
    lit_len_code <- lift (tree_new (firstn (N.to_nat num_lit_len_codes) code_lens)) ;;
    let dist_code_len := skipn (N.to_nat num_lit_len_codes) code_lens in
    if match dist_code_len with [x] => 0 =? x | _ => false end
    then ret (lit_len_code, None)
    else
      dist_tree <- lift (dist_tree_of dist_code_len) ;;
      ret (lit_len_code, Some dist_tree).
End ReadCodes.

(** huffman.rs:138-149 *)
Definition encode_run_length (length : N) : outcome N :=
  if (3 <=? length) && (length <=? 10) then Ok (257 + length - 3)
  else if (11 <=? length) && (length <=? 18) then Ok (265 + (length - 11) / 2)
  else if (19 <=? length) && (length <=? 34) then Ok (269 + (length - 19) / 4)
  else if (35 <=? length) && (length <=? 66) then Ok (273 + (length - 35) / 8)
  else if (67 <=? length) && (length <=? 130) then Ok (277 + (length - 67) / 16)
  else if (131 <=? length) && (length <=? 257) then Ok (281 + (length - 131) / 32)
  else if length =? 258 then Ok 285
  else Panic "insane run length".

(** huffman.rs:155-165 *)
Definition extra_run_length (length : N) : outcome (option (N * N)) :=
  if ((3 <=? length) && (length <=? 10)) || (length =? 258) then Ok None
  else if (11 <=? length) && (length <=? 18) then Ok (Some (1, (length - 11) mod 2))
  else if (19 <=? length) && (length <=? 34) then Ok (Some (2, (length - 19) mod 4))
  else if (35 <=? length) && (length <=? 66) then Ok (Some (3, (length - 35) mod 8))
  else if (67 <=? length) && (length <=? 130) then Ok (Some (4, (length - 67) mod 16))
  else if (131 <=? length) && (length <=? 257) then Ok (Some (5, (length - 131) mod 32))
  else Panic "insane run length".

Section DecodeValues.
  Context {S : Type} (rb : M S bool).

  (** huffman.rs:168-192; the Rust function takes a [BitReader], only its [read_part] is used.
      [high_part] is a [u8]: the shift discards bits above 255. *)
  Definition decode_run_length (sym : N) : M S N :=
    ensure ((257 <=? sym) && (sym <=? 287)) "decompressor bug" ;;;
    if sym <=? 264 then ret (sym - 254)
    else if sym <=? 284 then
      let extra_bits := ((sym - 261) / 4) mod 256 in
      assert_ (extra_bits <? 6) "assert!(extra_bits < 6)" ;;;
      let high_part := (N.shiftl ((((sym - 265) mod 256) mod 4) + 4) extra_bits) mod 256 in
      low <- read_part rb extra_bits ;;
      let low_part := low mod 256 in
      ret (high_part + low_part + 3)
    else if sym =? 285 then ret 258
    else fail "reserved symbol".

  (** huffman.rs:220-231; [u16] arithmetic, never above 32768 *)
  Definition decode_distance (sym : N) : M S N :=
    if sym <=? 3 then ret (sym + 1)
    else if sym <=? 29 then
      let num_extra_bits := (sym / 2 - 1) mod 256 in
      e <- read_part rb num_extra_bits ;;
      ret (N.shiftl (sym mod 2 + 2) num_extra_bits + 1 + e)
    else if sym <=? 31 then fail "reserved distance symbol"
    else fail "invalid distance symbol".
End DecodeValues.

(** huffman.rs:203-207: [while base * 2 < distance]; [base * 2] overflows [u16] at 65536. *)
Fixpoint encode_distance_loop (fuel : nat) (distance extra_bits code base : N)
  : outcome (N * N * N) :=
  match fuel with
  | O => Diverge
  | S fuel' =>
      if 65536 <=? base * 2 then Panic "attempt to multiply with overflow"
      else if base * 2 <? distance
           then encode_distance_loop fuel' distance (extra_bits + 1) (code + 2) (base * 2)
           else Ok (extra_bits, code, base)
  end.

(** huffman.rs:195-218; the result is always [Some]. *)
Definition huff_encode_distance (distance : N) : outcome (option (N * N * N)) :=
  if distance <=? 4 then
    if distance =? 0 then Panic "attempt to subtract with overflow"
    else Ok (Some (distance - 1, 0, 0))
  else
    r <-? encode_distance_loop 16 distance 1 4 4 ;;
    let '(extra_bits, code, base) := r in
    let half := base / 2 in
    let delta := distance - base - 1 in
    if distance <=? base + half
    then Ok (Some (code, extra_bits, delta mod half))
    else Ok (Some (code + 1, extra_bits, delta mod half)).
