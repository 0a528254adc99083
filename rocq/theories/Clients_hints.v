(** Restoring from hints that need not come from a trace (C81).  Nothing here models code of the repository. *)
From Verif Require Import Base M_lib Spec Clients_restore.
Local Open Scope N_scope.

(** The code decompresses to what the data [all] has at [pos]. *)
Definition right_code (all : list N) (pos : nat) (c : Code) : Prop :=
  (pos + code_bytes c <= List.length all)%nat /\ lz_decode 32768 (firstn pos all) [c] = Some (firstn (pos + code_bytes c) all).

(** What a hint at a position allows the code to be.  A literal is looked up in the data without the preroll. *)
Definition answers (preroll data : list N) (pos : nat) (h : Trace) (c : Code) : Prop :=
  match h with
  | Correct => right_code (preroll ++ data) pos c
  | Actually r => c = Reference r
  | ActuallyLiteral => exists b, nth_error data pos = Some b /\ c = Literal b
  end.

(** Hints and codes go together, one by one, from a position to another; each code starts before the end. *)
Inductive follows (preroll data : list N) : nat -> list Trace -> list Code -> nat -> Prop :=
| follows_nil : forall pos, follows preroll data pos [] [] pos
| follows_cons : forall pos h c hints codes stop,
    (pos < List.length (preroll ++ data))%nat -> answers preroll data pos h c ->
    follows preroll data (pos + code_bytes c) hints codes stop ->
    follows preroll data pos (h :: hints) (c :: codes) stop.

(** The codes go exactly up to the end of the data, or the last one goes beyond it. *)
Fixpoint covers (total pos : nat) (codes : list Code) : Prop :=
  match codes with
  | [] => (total <= pos)%nat
  | c :: codes' => (pos < total)%nat /\ covers total (pos + code_bytes c) codes'
  end.
