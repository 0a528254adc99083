(** What C91 talks about: the hints for given codes and the codes for given hints, by what an encoder chooses.  Nothing here
    models code of the repository. *)
From Verif Require Import Base M_lib Spec Spec_encoder.
Local Open Scope N_scope.

(** The hint for a code that was not the one guessed. *)
Definition instead (c : Code) : Trace := match c with Literal _ => ActuallyLiteral | Reference r => Actually r end.

(** The code such a hint stands for at a position; a literal is looked up in [data]. *)
Definition stands_for (data : list N) (pos : nat) (h : Trace) (c : Code) : Prop :=
  match h with
  | Correct => False
  | Actually r => c = Reference r
  | ActuallyLiteral => exists b, nth_error data pos = Some b /\ c = Literal b
  end.

Section Choice.
  (** The text; matches longer than the limit hide their inside from later searches; what an encoder that was given codes up
      to a position, with these matches hidden, goes on with. *)
  Context (w : list N) (limit : option N) (choice : list (nat * N) -> nat -> list Code -> Prop).

  (** As long as the codes are those chosen the hints are [Correct]; the first one that is not gets its own hint, and the
      encoder goes on behind it. *)
  Inductive traced : list (nat * N) -> nat -> list Code -> list Trace -> Prop :=
  | tr_end runs pos codes : (List.length w <= pos)%nat -> traced runs pos codes []
  | tr_right runs pos guess codes hints : (pos < List.length w)%nat -> choice runs pos guess ->
      traced (runs ++ long_runs limit pos guess) (pos + codes_len guess) codes hints ->
      traced runs pos (guess ++ codes) (repeat Correct (List.length guess) ++ hints)
  | tr_wrong runs pos right g more c codes hints : (pos < List.length w)%nat -> choice runs pos (right ++ g :: more) -> g <> c ->
      traced (runs ++ long_runs limit pos (right ++ [c])) (pos + codes_len (right ++ [c])) codes hints ->
      traced runs pos (right ++ c :: codes) (repeat Correct (List.length right) ++ instead c :: hints).

  (** The other way round. *)
  Inductive restored (data : list N) : list (nat * N) -> nat -> list Trace -> list Code -> Prop :=
  | rs_end runs pos hints : (List.length w <= pos)%nat -> restored data runs pos hints []
  | rs_right runs pos guess hints codes : (pos < List.length w)%nat -> choice runs pos guess ->
      restored data (runs ++ long_runs limit pos guess) (pos + codes_len guess) hints codes ->
      restored data runs pos (repeat Correct (List.length guess) ++ hints) (guess ++ codes)
  | rs_wrong runs pos right g more h c hints codes : (pos < List.length w)%nat -> choice runs pos (right ++ g :: more) ->
      stands_for data (pos + codes_len right) h c ->
      restored data (runs ++ long_runs limit pos (right ++ [c])) (pos + codes_len (right ++ [c])) hints codes ->
      restored data runs pos (repeat Correct (List.length right) ++ h :: hints) (right ++ c :: codes).
End Choice.
