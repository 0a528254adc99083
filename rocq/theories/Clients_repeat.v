(** What C101 says about repetition, in terms of the text alone.  Nothing here models code of the repository. *)
From Verif Require Import Base Spec.
Local Open Scope N_scope.

(** The earlier places with the same next three bytes, nearest first, no more than 32768 back (the first byte of the text is
    not looked at). *)
Definition earlier (w : list N) (pos : nat) : list nat :=
  filter (fun q => (N.of_nat (pos - q) <=? 32768) && (if list_eq_dec N.eq_dec (three w q) (three w pos) then true else false)) (rev (seq 1 (pos - 1))).
