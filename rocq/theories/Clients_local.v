(** How far a guess looks (C89).  Nothing here models code of the repository. *)
From Verif Require Import Base M_bit M_lib M_all_refs M_technique.

(** The same stretches, [k] further on. *)
Definition moved (k : nat) (runs : list (nat * N)) : list (nat * N) := map (fun run => ((k + fst run)%nat, snd run)) runs.

(** How many bytes from the position on a guess can depend on: the longest match; for the lazy strategies, the
    longest match at the last position a match can be deferred to. *)
Definition reach (l : Lookahead) : nat := match l with LGreedy => 258 | LThreeZip => 260 | LGzip => 514 end.
