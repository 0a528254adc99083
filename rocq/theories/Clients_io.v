(** What C70 and C71 talk about.  Nothing here models code of the repository. *)
From Verif Require Import Base M_io.
Local Open Scope N_scope.

(** All the bytes a reader delivers. *)
Definition rd_bytes (events : list read_event) : list N :=
  flat_map (fun e => match e with RBytes bs => bs | RInterrupted => [] end) events.

(** A reader that keeps to the contract of [Read]: [Ok(0)] means the end of the file. *)
Definition rd_ok (events : list read_event) : Prop := ~ In (RBytes []) events.

(** How many bytes a writer accepts before it fails; [None]: any number. *)
Definition wr_room (events : list write_event) (fails : bool) : option nat :=
  if fails then Some (fold_right (fun e n => match e with WAccept k => k + n | WInterrupted => n end)%nat 0%nat events) else None.

(** A writer that does not answer [Ok(0)] before it fails for good. *)
Definition wr_ok (events : list write_event) : Prop := ~ In (WAccept 0) events.

(** The results of [n] successive calls, and the state after them. *)
Fixpoint results {S A} (m : M S A) (n : nat) (s : S) : list (outcome A) :=
  match n with
  | O => []
  | Datatypes.S n' => let '(o, s') := m s in o :: results m n' s'
  end.
Fixpoint after {S A} (m : M S A) (n : nat) (s : S) : S :=
  match n with
  | O => s
  | Datatypes.S n' => after m n' (snd (m s))
  end.
