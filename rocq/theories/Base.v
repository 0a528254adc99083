(** Common vocabulary of the model: outcomes, a state monad, byte sources and sinks. *)
From Coq Require Export List Arith NArith Bool String Lia.
Export ListNotations.

(** Kinds of [std::io::Error] the code distinguishes (serialise_trace.rs:71). *)
Inductive errkind := UnexpectedEof | OtherIo.

(** [anyhow::Error]: an I/O error or one of the [ensure!]/[bail!] messages.  [ErrorKind::Interrupted] is apart: only
    the retrying loops of std::io (M_io) see it. *)
Inductive err := EIo (k : errkind) | EMsg (m : string) | EInterrupted.

(** Result of running a Rust function: [Ok], [Err], a panic, or (model only) fuel exhausted. *)
Inductive outcome (A : Type) : Type :=
| Ok (a : A)
| Err (e : err)
| Panic (m : string)
| Diverge.
Arguments Ok {A} a.
Arguments Err {A} e.
Arguments Panic {A} m.
Arguments Diverge {A}.

Definition obind {A B} (x : outcome A) (k : A -> outcome B) : outcome B :=
  match x with
  | Ok a => k a
  | Err e => Err e
  | Panic m => Panic m
  | Diverge => Diverge
  end.

(** A computation with mutable state ([&mut self]); the state survives an [Err]. *)
Definition M (S A : Type) : Type := S -> outcome A * S.

Definition ret {S A} (a : A) : M S A := fun s => (Ok a, s).
Definition bind {S A B} (m : M S A) (k : A -> M S B) : M S B :=
  fun s =>
    match m s with
    | (Ok a, s') => k a s'
    | (Err e, s') => (Err e, s')
    | (Panic p, s') => (Panic p, s')
    | (Diverge, s') => (Diverge, s')
    end.
Definition lift {S A} (x : outcome A) : M S A := fun s => (x, s).
Definition fail {S A} (m : string) : M S A := fun s => (Err (EMsg m), s).
Definition panic {S A} (m : string) : M S A := fun s => (Panic m, s).
(** [ensure!(b, m)] *)
Definition ensure {S} (b : bool) (m : string) : M S unit := if b then ret tt else fail m.
(** [assert!(b)] *)
Definition assert_ {S} (b : bool) (m : string) : M S unit := if b then ret tt else panic m.

Declare Scope model_scope.
Delimit Scope model_scope with model.
Notation "x <- m ;; k" := (bind m (fun x => k))
  (at level 61, m at next level, right associativity) : model_scope.
Notation "m ;;; k" := (bind m (fun _ => k))
  (at level 61, right associativity) : model_scope.
Notation "x <-? m ;; k" := (obind m (fun x => k))
  (at level 61, m at next level, right associativity) : model_scope.

(** [v[i]] *)
Definition get_idx {A} (l : list A) (i : nat) : outcome A :=
  match nth_error l i with
  | Some a => Ok a
  | None => Panic "index out of bounds"
  end.

Fixpoint upd {A} (l : list A) (i : nat) (a : A) : list A :=
  match l, i with
  | [], _ => []
  | _ :: t, O => a :: t
  | x :: t, S i' => x :: upd t i' a
  end.

(** [v[i] = a] *)
Definition set_idx {A} (l : list A) (i : nat) (a : A) : outcome (list A) :=
  if Nat.ltb i (List.length l) then Ok (upd l i a) else Panic "index out of bounds".

(** Rust's guarantee that a [Vec<u8>] holds bytes. *)
Definition is_byte (b : N) : Prop := (b < 256)%N.
Definition bytes_ok (l : list N) : Prop := Forall is_byte l.

(** ** std::io *)

(** [R: Read]: the bytes still to come, and the error reported once they are exhausted
    ([UnexpectedEof] for a plain end of file).  Short reads are invisible because the code only
    uses [read_exact], which loops. *)
Record source := mkSource { rest : list N; at_end : errkind }.

(** [Read::read_exact(&mut buf)] for a buffer of [n] bytes.  On failure everything left is consumed. *)
Definition read_exact (n : nat) : M source (list N) :=
  fun s =>
    if Nat.leb n (List.length (rest s))
    then (Ok (firstn n (rest s)), mkSource (skipn n (rest s)) (at_end s))
    else (Err (EIo (at_end s)), mkSource [] (at_end s)).

(** [W: Write]: what has been accepted so far and how much room is left ([None]: unlimited, as for
    [Vec<u8>]). *)
Record sink := mkSink { written : list N; room : option nat }.

Definition new_sink : sink := mkSink [] None.

(** [Write::write_all]: writes everything, or as much as there is room for and fails. *)
Definition write_all (bs : list N) : M sink unit :=
  fun s =>
    match room s with
    | None => (Ok tt, mkSink (written s ++ bs) None)
    | Some r =>
        if Nat.leb (List.length bs) r
        then (Ok tt, mkSink (written s ++ bs) (Some (r - List.length bs)))
        else (Err (EIo OtherIo), mkSink (written s ++ firstn r bs) (Some 0))
    end.

(** Running a computation on one component of a larger state. *)
Definition zoom {S T A} (get : T -> S) (put : S -> T -> T) (m : M S A) : M T A :=
  fun t => let '(a, s) := m (get t) in (a, put s t).
