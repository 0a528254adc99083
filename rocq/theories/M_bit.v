(** Model of lib/src/bit.rs *)
From Verif Require Import Base.
Local Open Scope N_scope.
Local Open Scope model_scope.

(** ** BitVec (bit.rs:179-335) *)

(** bit.rs:179 *)
Definition WORD_SIZE : nat := 8.

(** bit.rs:181-185 *)
Record bitvec := mkBitVec { bv_bytes : list N; bv_len : nat }.

(** bit.rs:188-193 *)
Definition bv_new : bitvec := mkBitVec [] 0.

(** bit.rs:195-200 *)
Definition bv_from_slice (bytes : list N) : bitvec :=
  mkBitVec bytes (List.length bytes * WORD_SIZE).

(** bit.rs:202-217; the assertion and the indexing are explicit panics. *)
Definition bv_push (v : bitvec) (val : bool) : outcome bitvec :=
  let word := (bv_len v / WORD_SIZE)%nat in
  let bit := (bv_len v mod WORD_SIZE)%nat in
  bytes <-? (if Nat.leb (List.length (bv_bytes v)) word
             then if Nat.eqb word (List.length (bv_bytes v))
                  then Ok (bv_bytes v ++ [0])
                  else Panic "assert_eq!(word, self.bytes.len())"
             else Ok (bv_bytes v)) ;;
  bytes <-? (if val
             then w <-? get_idx bytes word ;;
                  set_idx bytes word (N.lor w (N.shiftl 1 (N.of_nat bit)))
             else Ok bytes) ;;
  Ok (mkBitVec bytes (S (bv_len v))).

(** bit.rs:219-226 *)
Definition bv_get (v : bitvec) (pos : nat) : outcome bool :=
  if Nat.ltb pos (bv_len v)
  then
    let word := (pos / WORD_SIZE)%nat in
    let bit := N.of_nat (pos mod WORD_SIZE)%nat in
    w <-? get_idx (bv_bytes v) word ;;
    Ok (N.land w (N.shiftl 1 bit) =? N.shiftl 1 bit)
  else Panic "out of range".

(** bit.rs:228-242; [Vec::pop] on the bytes is [removelast]. *)
Definition bv_pop (v : bitvec) : outcome (option bool * bitvec) :=
  if Nat.eqb 0 (bv_len v) then Ok (None, v)
  else
    answer <-? bv_get v (bv_len v - 1) ;;
    let len := (bv_len v - 1)%nat in
    let bytes := if Nat.eqb (len mod WORD_SIZE) 0 then removelast (bv_bytes v) else bv_bytes v in
    Ok (Some answer, mkBitVec bytes len).

(** bit.rs:253-256 *)
Definition bv_is_empty (v : bitvec) : outcome bool :=
  let no_bytes := match bv_bytes v with [] => true | _ => false end in
  if Bool.eqb (Nat.eqb (bv_len v) 0) no_bytes
  then Ok (Nat.eqb (bv_len v) 0)
  else Panic "assert_eq!(self.len == 0, self.bytes.is_empty())".

(** The [for pos in 0..8] loop of bit.rs:265-269. *)
Fixpoint bv_pop_byte_loop (poss : list nat) (ret : N) (v : bitvec) : outcome (N * bitvec) :=
  match poss with
  | [] => Ok (ret, v)
  | pos :: poss' =>
      p <-? bv_pop v ;;
      match p with
      | (Some b, v') =>
          let ret' := if b then N.lor ret (N.shiftl 1 (7 - N.of_nat pos)) else ret in
          bv_pop_byte_loop poss' ret' v'
      | (None, _) => Panic "unwrap on None"
      end
  end.

(** bit.rs:258-272 *)
Definition bv_pop_byte (v : bitvec) : outcome (option N * bitvec) :=
  if Nat.ltb (bv_len v) 8 then Ok (None, v)
  else r <-? bv_pop_byte_loop (seq 0 8) 0 v ;;
       Ok (Some (fst r), snd r).

(** Derived [PartialEq] (bit.rs:181): bytes and length. *)
Definition bv_eqb (a b : bitvec) : bool :=
  (if list_eq_dec N.eq_dec (bv_bytes a) (bv_bytes b) then true else false)
  && Nat.eqb (bv_len a) (bv_len b).

(** ** StackIterator (bit.rs:305-325) *)
Record stack_iter := mkIter { si_inner : bitvec; si_pos : nat }.

(** bit.rs:274-279 *)
Definition bv_iter (v : bitvec) : stack_iter := mkIter v 0.

(** bit.rs:313-324 *)
Definition si_next : M stack_iter (option bool) :=
  fun it =>
    if Nat.leb (bv_len (si_inner it)) (si_pos it)
    then if Nat.eqb (si_pos it) (bv_len (si_inner it))
         then (Ok None, it)
         else (Panic "assert_eq!(self.pos, self.inner.len())", it)
    else match bv_get (si_inner it) (si_pos it) with
         | Ok b => (Ok (Some b), mkIter (si_inner it) (S (si_pos it)))
         | Err e => (Err e, it)
         | Panic m => (Panic m, it)
         | Diverge => (Diverge, it)
         end.

(** [for bit in vec.iter()] collected into a list; [n] is the number of calls to [next] allowed. *)
Fixpoint si_collect (n : nat) (it : stack_iter) : outcome (list bool) :=
  match n with
  | O => Diverge
  | S n' =>
      match si_next it with
      | (Ok (Some b), it') => l <-? si_collect n' it' ;; Ok (b :: l)
      | (Ok None, _) => Ok []
      | (Err e, _) => Err e
      | (Panic m, _) => Panic m
      | (Diverge, _) => Diverge
      end
  end.

Definition bv_to_list (v : bitvec) : outcome (list bool) := si_collect (S (bv_len v)) (bv_iter v).

(** ** BitReader (bit.rs:13-18, 25-110) *)
Record bit_reader := mkReader {
  br_inner : source;
  br_current : N;
  br_remaining : N;
  br_track : option bitvec }.

(** bit.rs:26-33 *)
Definition br_new (inner : source) : bit_reader := mkReader inner 0 0 None.

(** bit.rs:35-38 *)
Definition br_position : M bit_reader N :=
  fun r => if br_remaining r <=? 7
           then (Ok ((8 - br_remaining r) mod 8), r)
           else (Panic "assert!(self.remaining_bits <= 7)", r).

(** bit.rs:41-46: refill [current] when no bits are left. *)
Definition br_refill : M bit_reader unit :=
  fun r =>
    if 0 =? br_remaining r
    then match read_exact 1 (br_inner r) with
         | (Ok buf, s) => (Ok tt, mkReader s (nth 0 buf 0) 8 (br_track r))
         | (Err e, s) => (Err e, mkReader s (br_current r) (br_remaining r) (br_track r))
         | (Panic m, s) => (Panic m, r)
         | (Diverge, s) => (Diverge, r)
         end
    else (Ok tt, r).

(** bit.rs:40-58 *)
Definition br_read_bit : M bit_reader bool :=
  br_refill ;;;
  (fun r =>
     let remaining := br_remaining r - 1 in
     let bit := N.land (N.shiftr (br_current r) (7 - remaining)) 1 in
     let bit := 1 =? bit in
     match br_track r with
     | None => (Ok bit, mkReader (br_inner r) (br_current r) remaining None)
     | Some vec =>
         match bv_push vec bit with
         | Ok vec' => (Ok bit, mkReader (br_inner r) (br_current r) remaining (Some vec'))
         | Err e => (Err e, r)
         | Panic m => (Panic m, r)
         | Diverge => (Diverge, r)
         end
     end).

Definition br_assert_untracked : M bit_reader unit :=
  fun r => match br_track r with
           | None => (Ok tt, r)
           | Some _ => (Panic "assert!(self.track.is_none())", r)
           end.

(** bit.rs:63-65: the [while] loop of [align]; at most 8 iterations are ever needed, [fuel] counts them. *)
Fixpoint br_align_loop (fuel : nat) : M bit_reader unit :=
  match fuel with
  | O => lift Diverge
  | S fuel' =>
      p <- br_position ;;
      if 0 =? p then ret tt
      else b <- br_read_bit ;;
           ensure (negb b) "padding bits should always be empty" ;;;
           br_align_loop fuel'
  end.

(** bit.rs:60-67 *)
Definition br_align : M bit_reader unit :=
  br_assert_untracked ;;; br_align_loop 9.

(** ** BitSource (bit.rs:337-352): the trait's [read_bit] is the parameter [rb]. *)
Section BitSource.
  Context {S : Type} (rb : M S bool).

  (** the [for i in 0..bits] loop of bit.rs:344-348 *)
  Fixpoint read_part_loop (is : list nat) (res : N) : M S N :=
    match is with
    | [] => ret res
    | i :: is' =>
        b <- rb ;;
        read_part_loop is' (if b then N.lor res (N.shiftl 1 (N.of_nat i)) else res)
    end.

  (** bit.rs:340-351 *)
  Definition read_part (bits : N) : M S N :=
    assert_ (bits <=? 16) "assert!(bits <= 16)" ;;;
    read_part_loop (seq 0 (N.to_nat bits)) 0.
End BitSource.

(** bit.rs:360-364: [expect("TODO: EOF")] *)
Definition si_read_bit : M stack_iter bool :=
  o <- si_next ;;
  match o with
  | Some b => ret b
  | None => panic "TODO: EOF"
  end.

(** ** BitCollector (bit.rs:366-390): the state is the inner source paired with the collected bits. *)
Section BitCollector.
  Context {S : Type} (rb : M S bool).

  (** bit.rs:384-390 *)
  Definition bc_read_bit : M (S * bitvec) bool :=
    fun st =>
      match rb (fst st) with
      | (Ok bit, s') =>
          match bv_push (snd st) bit with
          | Ok data => (Ok bit, (s', data))
          | Err e => (Err e, (s', snd st))
          | Panic m => (Panic m, (s', snd st))
          | Diverge => (Diverge, (s', snd st))
          end
      | (Err e, s') => (Err e, (s', snd st))
      | (Panic m, s') => (Panic m, (s', snd st))
      | (Diverge, s') => (Diverge, (s', snd st))
      end.
End BitCollector.

(** bit.rs:69-71 *)
Definition br_read_part (bits : N) : M bit_reader N := read_part br_read_bit bits.

(** Reading bytes directly from the reader's inner source (bit.rs:86-88, 98). *)
Definition br_inner_read_exact (n : nat) : M bit_reader (list N) :=
  zoom br_inner (fun s r => mkReader s (br_current r) (br_remaining r) (br_track r)) (read_exact n).

Definition br_assert_aligned : M bit_reader unit :=
  p <- br_position ;;
  assert_ (0 =? p) "assert_eq!(0, self.position())".

(** bit.rs:93-101: little-endian *)
Definition br_read_aligned_u16 : M bit_reader N :=
  br_assert_aligned ;;;
  br_assert_untracked ;;;
  buf <- br_inner_read_exact 2 ;;
  ret (N.lor (N.shiftl (nth 1 buf 0) 8) (nth 0 buf 0)).

(** bit.rs:73-91 *)
Definition br_read_length_prefixed : M bit_reader (list N) :=
  br_assert_aligned ;;;
  br_assert_untracked ;;;
  len <- br_read_aligned_u16 ;;
  ones_complement <- br_read_aligned_u16 ;;
  ensure (N.lxor len 65535 =? ones_complement) "uncompressed block length validation failed" ;;;
  br_inner_read_exact (N.to_nat len).

(** bit.rs:104-109 *)
Definition br_into_inner (r : bit_reader) : outcome source :=
  match br_assert_untracked r with
  | (Ok _, _) =>
      match br_assert_aligned r with
      | (Ok _, _) => Ok (br_inner r)
      | (Err e, _) => Err e
      | (Panic m, _) => Panic m
      | (Diverge, _) => Diverge
      end
  | (Err e, _) => Err e
  | (Panic m, _) => Panic m
  | (Diverge, _) => Diverge
  end.

(** ** BitWriter (bit.rs:20-23, 112-177) *)
Record bit_writer := mkWriter { bw_inner : sink; bw_current : bitvec }.

(** bit.rs:113-118 *)
Definition bw_new (inner : sink) : bit_writer := mkWriter inner bv_new.

Definition bw_inner_write_all (bs : list N) : M bit_writer unit :=
  zoom bw_inner (fun s w => mkWriter s (bw_current w)) (write_all bs).

Definition bw_lift_current {A} (f : bitvec -> outcome (A * bitvec)) : M bit_writer A :=
  fun w => match f (bw_current w) with
           | Ok (a, v) => (Ok a, mkWriter (bw_inner w) v)
           | Err e => (Err e, w)
           | Panic m => (Panic m, w)
           | Diverge => (Diverge, w)
           end.

(** bit.rs:120-128 *)
Definition bw_write_bit (bit : bool) : M bit_writer unit :=
  bw_lift_current (fun v => v' <-? bv_push v bit ;; Ok (tt, v')) ;;;
  (fun w =>
     if Nat.leb 8 (bv_len (bw_current w))
     then if Nat.eqb 8 (bv_len (bw_current w))
          then (o <- bw_lift_current bv_pop_byte ;;
                match o with
                | Some byte => bw_inner_write_all [byte]
                | None => panic "unwrap on None"
                end) w
          else (Panic "assert_eq!(8, self.current.len())", w)
     else (Ok tt, w)).

(** the [for i in 0..bits] loop of bit.rs:131-133; [1u16 << i] overflows for [i >= 16]. *)
Fixpoint bw_write_bits_val_loop (is : list nat) (val : N) : M bit_writer unit :=
  match is with
  | [] => ret tt
  | i :: is' =>
      assert_ (Nat.ltb i 16) "attempt to shift left with overflow" ;;;
      bw_write_bit (negb (N.land val (N.shiftl 1 (N.of_nat i)) =? 0)) ;;;
      bw_write_bits_val_loop is' val
  end.

(** bit.rs:130-135 *)
Definition bw_write_bits_val (bits val : N) : M bit_writer unit :=
  bw_write_bits_val_loop (seq 0 (N.to_nat bits)) val.

(** bit.rs:137-142; at most 8 iterations are ever needed, [fuel] counts them. *)
Fixpoint bw_align_loop (fuel : nat) : M bit_writer unit :=
  match fuel with
  | O => lift Diverge
  | S fuel' =>
      e <- bw_lift_current (fun v => e <-? bv_is_empty v ;; Ok (e, v)) ;;
      if (e : bool) then ret tt
      else bw_write_bit false ;;; bw_align_loop fuel'
  end.

Definition bw_align : M bit_writer unit := bw_align_loop 9.

(** the [for bit in vec.iter()] loop of bit.rs:145-147 *)
Fixpoint bw_write_iter (n : nat) (it : stack_iter) : M bit_writer unit :=
  match n with
  | O => lift Diverge
  | S n' =>
      match si_next it with
      | (Ok (Some b), it') => bw_write_bit b ;;; bw_write_iter n' it'
      | (Ok None, _) => ret tt
      | (Err e, _) => lift (Err e)
      | (Panic m, _) => panic m
      | (Diverge, _) => lift Diverge
      end
  end.

(** bit.rs:144-149 *)
Definition bw_write_vec (v : bitvec) : M bit_writer unit :=
  bw_write_iter (S (bv_len v)) (bv_iter v).

(** bit.rs:164-170: most significant byte first (big-endian). *)
Definition bw_write_aligned_u16 (val : N) : M bit_writer unit :=
  bw_inner_write_all [N.shiftr val 8; N.land val 255].

(** bit.rs:151-162 *)
Definition bw_write_length_prefixed (data : list N) : M bit_writer unit :=
  bw_align ;;;
  let len := N.of_nat (List.length data) in
  ensure (len <=? 65535) "data too long to store" ;;;
  bw_write_aligned_u16 len ;;;
  bw_write_aligned_u16 (N.lxor len 65535) ;;;
  bw_inner_write_all data.

(** bit.rs:172-176 *)
Definition bw_into_inner (w : bit_writer) : outcome sink :=
  if Nat.eqb 0 (bv_len (bw_current w)) then Ok (bw_inner w)
  else Panic "assert_eq!(0, self.current.len())".
