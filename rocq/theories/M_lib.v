(** Model of lib/src/lib.rs: the shared data types *)
From Verif Require Import Base M_bit.
Local Open Scope N_scope.
Local Open Scope model_scope.

(** lib.rs:39-43 *)
Record Ref := mkRef { r_dist : N; r_run_minus_3 : N }.

(** lib.rs:45-49 *)
Inductive Code := Literal (b : N) | Reference (r : Ref).

(** lib.rs:51-56 *)
Inductive Block :=
| Uncompressed (data : list N)
| FixedHuffman (codes : list Code)
| DynamicHuffman (trees : bitvec) (codes : list Code).

(** lib.rs:103-108 *)
Inductive Trace := Correct | ActuallyLiteral | Actually (r : Ref).

(** lib.rs:121-130; the four assertions are panics, [as u8] truncates. *)
Definition Ref_new (dist run : N) : outcome Ref :=
  if 3 <=? run then
    if run <=? 258 then
      if 1 <=? dist then
        if dist <=? 32768 then Ok (mkRef dist ((run - 3) mod 256))
        else Panic "assert_le!(dist, 32_768)"
      else Panic "assert_ge!(dist, 1)"
    else Panic "assert_le!(run, 258)"
  else Panic "assert_ge!(run, 3)".

(** lib.rs:133-135 *)
Definition r_run (r : Ref) : N := r_run_minus_3 r + 3.

(** lib.rs:111-116 *)
Definition emitted_bytes (c : Code) : N :=
  match c with
  | Literal _ => 1
  | Reference r => r_run r
  end.

(** Derived equality on [Ref], [Code], [Trace] (lib.rs:39,45,103). *)
Definition Ref_eqb (a b : Ref) : bool :=
  (r_dist a =? r_dist b) && (r_run_minus_3 a =? r_run_minus_3 b).
Definition Code_eqb (a b : Code) : bool :=
  match a, b with
  | Literal x, Literal y => x =? y
  | Reference x, Reference y => Ref_eqb x y
  | _, _ => false
  end.
Definition Trace_eqb (a b : Trace) : bool :=
  match a, b with
  | Correct, Correct => true
  | ActuallyLiteral, ActuallyLiteral => true
  | Actually x, Actually y => Ref_eqb x y
  | _, _ => false
  end.
(** Slice equality, as used by [assert_eq!] on slices. *)
Fixpoint slice_eqb {A} (eqb : A -> A -> bool) (a b : list A) : bool :=
  match a, b with
  | [], [] => true
  | x :: a', y :: b' => eqb x y && slice_eqb eqb a' b'
  | _, _ => false
  end.
