(** Texts that differ in the names of their bytes only (C102).  Nothing here models code of the repository. *)
From Verif Require Import Base M_lib.
Local Open Scope N_scope.

(** [f] gives every byte another name, and no two bytes the same one. *)
Definition renaming (f : N -> N) : Prop :=
  (forall a, a < 256 -> f a < 256) /\ (forall a b, a < 256 -> b < 256 -> f a = f b -> a = b).

Definition rename (f : N -> N) (c : Code) : Code :=
  match c with
  | Literal b => Literal (f b)
  | Reference r => Reference r
  end.

(** The same for codes that may not have been computed. *)
Definition renamed (f : N -> N) (o : outcome (list Code)) : outcome (list Code) :=
  match o with
  | Ok codes => Ok (map (rename f) codes)
  | Err e => Err e
  | Panic m => Panic m
  | Diverge => Diverge
  end.
