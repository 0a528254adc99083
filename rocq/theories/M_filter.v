(** Model of lib/src/filter.rs.  A SHA-512 state is modelled by the bytes absorbed so far; the hash
    function itself is a parameter. *)
From Verif Require Import Base.

Section Filter.
  Context {S : Type}.

  (** filter.rs:8-11, 13-16: inner stream and digest *)
  Record Filter := mkFilter { f_inner : S; f_hash : list N }.

  (** filter.rs:27-32, 57-62 *)
  Definition filter_new (inner : S) : Filter := mkFilter inner [].

  (** filter.rs:19-23.  [inner_read n] is the inner [read] on a buffer of [n] bytes: it returns the
      bytes it placed at the start of the buffer.  [&buf[0..len]] panics if [len > n]. *)
  Definition fr_read (inner_read : nat -> M S (list N)) (n : nat) : M Filter (list N) :=
    fun f =>
      match inner_read n (f_inner f) with
      | (Ok got, s) =>
          if Nat.leb (List.length got) n
          then (Ok got, mkFilter s (f_hash f ++ got))
          else (Panic "range end index out of range", mkFilter s (f_hash f))
      | (Err e, s) => (Err e, mkFilter s (f_hash f))
      | (Panic m, s) => (Panic m, mkFilter s (f_hash f))
      | (Diverge, s) => (Diverge, mkFilter s (f_hash f))
      end.

  (** filter.rs:45-49.  [inner_write buf] is the inner [write]: it returns how many bytes it took. *)
  Definition fw_write (inner_write : list N -> M S nat) (buf : list N) : M Filter nat :=
    fun f =>
      match inner_write buf (f_inner f) with
      | (Ok len, s) =>
          if Nat.leb len (List.length buf)
          then (Ok len, mkFilter s (f_hash f ++ firstn len buf))
          else (Panic "range end index out of range", mkFilter s (f_hash f))
      | (Err e, s) => (Err e, mkFilter s (f_hash f))
      | (Panic m, s) => (Panic m, mkFilter s (f_hash f))
      | (Diverge, s) => (Diverge, mkFilter s (f_hash f))
      end.

  (** filter.rs:51-53 *)
  Definition fw_flush (inner_flush : M S unit) : M Filter unit :=
    zoom f_inner (fun s f => mkFilter s (f_hash f)) inner_flush.

  (** filter.rs:35-37, 65-67 *)
  Definition filter_into_inner (f : Filter) : S := f_inner f.

  (** filter.rs:39-41, 69-71 *)
  Definition filter_hash (sha512 : list N -> list N) (f : Filter) : list N := sha512 (f_hash f).
End Filter.
Arguments Filter S : clear implicits.
