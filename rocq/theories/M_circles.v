(** Model of lib/src/circles.rs *)
From Verif Require Import Base.
Local Open Scope N_scope.
Local Open Scope model_scope.

(** circles.rs:6-11 *)
Record circ := mkCirc { cb_data : list N; cb_idx : nat; cb_valid : N }.

(** circles.rs:18-26; [cap] is a [u16] *)
Definition cb_with_capacity (cap : N) : outcome circ :=
  if 0 <? cap then Ok (mkCirc (repeat 0 (N.to_nat cap)) 0 0)
  else Panic "assert!(cap > 0)".

(** circles.rs:14-16 *)
Definition cb_new : outcome circ := cb_with_capacity (32 * 1024).

(** circles.rs:6: [#[derive(Default)]] *)
Definition cb_default : circ := mkCirc [] 0 0.

(** circles.rs:28-35; indexing, [% 0] and the [u16] increment can panic *)
Definition cb_push (b : circ) (val : N) : outcome circ :=
  data <-? set_idx (cb_data b) (cb_idx b) val ;;
  let len := List.length data in
  idx <-? (if Nat.eqb len 0 then Panic "attempt to calculate the remainder with a divisor of zero"
           else Ok ((cb_idx b + 1) mod len)%nat) ;;
  if cb_valid b <? N.of_nat len
  then if cb_valid b =? 65535 then Panic "attempt to add with overflow"
       else Ok (mkCirc data idx (cb_valid b + 1))
  else Ok (mkCirc data idx (cb_valid b)).

(** circles.rs:37-43 *)
Fixpoint cb_extend (b : circ) (val : list N) : outcome circ :=
  match val with
  | [] => Ok b
  | byte :: val' => b' <-? cb_push b byte ;; cb_extend b' val'
  end.

(** circles.rs:62-67: the copy loop, run [n] times; the state is the buffer and the output. *)
Fixpoint cb_copy_loop (n : nat) (read_from : nat) : M (circ * sink) unit :=
  match n with
  | O => ret tt
  | S n' =>
      fun st =>
        let '(b, out) := st in
        match get_idx (cb_data b) read_from with
        | Ok byte =>
            let read_from' := ((read_from + 1) mod List.length (cb_data b))%nat in
            match write_all [byte] out with
            | (Ok _, out') =>
                match cb_push b byte with
                | Ok b' => cb_copy_loop n' read_from' (b', out')
                | Err e => (Err e, (b, out'))
                | Panic m => (Panic m, (b, out'))
                | Diverge => (Diverge, (b, out'))
                end
            | (Err e, out') => (Err e, (b, out'))
            | (Panic m, out') => (Panic m, (b, out'))
            | (Diverge, out') => (Diverge, (b, out'))
            end
        | Err e => (Err e, st)
        | Panic m => (Panic m, st)
        | Diverge => (Diverge, st)
        end
  end.

(** circles.rs:56-60: [(idx.wrapping_sub(dist).wrapping_add(len)) % len] on 64-bit [usize] *)
Definition cb_read_from (b : circ) (dist : N) : outcome nat :=
  let len := N.of_nat (List.length (cb_data b)) in
  if len =? 0 then Panic "attempt to calculate the remainder with a divisor of zero"
  else Ok (N.to_nat ((((N.of_nat (cb_idx b) + 2 ^ 64 - dist) mod 2 ^ 64 + len) mod 2 ^ 64) mod len)).

(** circles.rs:46-70 *)
Definition cb_copy (dist len : N) : M (circ * sink) unit :=
  fun st =>
    if (0 <? dist) && (dist <=? cb_valid (fst st))
    then (read_from <- lift (cb_read_from (fst st) dist) ;;
          cb_copy_loop (N.to_nat len) read_from) st
    else (Err (EMsg "dist must fit"), st).

(** circles.rs:73-89; [debug] tells whether [debug_assert!] is compiled in.  [isize]
    arithmetic is exact here; a negative final index would be a huge [usize], i.e. out of bounds. *)
Definition cb_get_at_dist (debug : bool) (b : circ) (dist : N) : outcome N :=
  if debug && negb ((0 <? dist) && (cb_valid b <=? N.of_nat (List.length (cb_data b)))
                    && (dist <=? cb_valid b))
  then Panic "debug_assert!"
  else
    let d := N.to_nat dist in
    if Nat.leb d (cb_idx b) then get_idx (cb_data b) (cb_idx b - d)
    else if Nat.leb d (cb_idx b + List.length (cb_data b))
         then get_idx (cb_data b) (cb_idx b + List.length (cb_data b) - d)
         else Panic "index out of bounds".

(** circles.rs:91-93: [as u16] truncates *)
Definition cb_capacity (b : circ) : N := N.of_nat (List.length (cb_data b)) mod 65536.

(** circles.rs:95-97 *)
Definition cb_len (b : circ) : N := cb_valid b.

(** circles.rs:103-105: [for pos in (1..1 + valid_cap).rev()], [n] counts down *)
Fixpoint cb_vec_loop (debug : bool) (b : circ) (n : nat) : outcome (list N) :=
  match n with
  | O => Ok []
  | S n' =>
      x <-? cb_get_at_dist debug b (N.of_nat n) ;;
      l <-? cb_vec_loop debug b n' ;;
      Ok (x :: l)
  end.

(** circles.rs:99-108; [1 + self.valid_cap] is a [u16] addition: with overflow checks
    ([debug]) it panics at 65535, without them it wraps to an empty range. *)
Definition cb_vec (debug : bool) (b : circ) : outcome (list N) :=
  if cb_valid b =? 65535
  then if debug then Panic "attempt to add with overflow" else Ok []
  else cb_vec_loop debug b (N.to_nat (cb_valid b)).
