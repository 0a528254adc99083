(** What C72 and C73 talk about.  Nothing here models code of the repository. *)
From Verif Require Import Base Spec.
Local Open Scope N_scope.

(** The strings of three typeable characters (space to tilde) with gzip's hash [h]. *)
Definition with_hash (h : N) (s : list N) : Prop :=
  List.length s = 3%nat /\ Forall (fun c => 32 <= c <= 126) s /\ hash3 s 0 = h.

(** [a] sorts before [b]: at the first difference [a] has the smaller byte. *)
Definition sorts_before (a b : list N) : Prop :=
  exists common x a' y b', a = common ++ x :: a' /\ b = common ++ y :: b' /\ x < y.

(** Differing at most in the first byte. *)
Definition same_tail (s t : list N) : Prop := exists x y tail, s = x :: tail /\ t = y :: tail.

(** A line of seven graphic characters. *)
Definition hard_line (l : list N) : Prop :=
  exists word, l = word ++ [10] /\ List.length word = 7%nat /\ Forall (fun c => 33 <= c <= 126) word.

(** A line of the listing as it should be: the number of its strings, at least one, and the strings, of three bytes. *)
Definition listing_line (l : nat * list (list N)) : Prop :=
  fst l = List.length (snd l) /\ (1 <= fst l)%nat /\ Forall (fun s => List.length s = 3%nat) (snd l).
