(** What a bit vector does on any history (C03).  Nothing here models code of the repository. *)
From Verif Require Import Base M_bit Spec Clients.

(** A stack of bits that remembers what is left over in its last byte: popping inside a byte leaves the popped
    bit behind, a push inside a byte ors the bit with what was left there, a new byte starts with zeros. *)
Definition leftover_push (b : bool) (l leftover : list bool) : list bool * list bool :=
  match leftover with
  | [] => (l ++ [b], repeat false 7)
  | s :: more => (l ++ [orb b s], more)
  end.

Definition leftover_pop (l leftover : list bool) : list bool * list bool :=
  match l with
  | [] => (l, leftover)
  | _ => (removelast l, if Nat.eqb (List.length (removelast l) mod 8) 0 then [] else last l false :: leftover)
  end.

Fixpoint leftover_ops (ops : list vec_op) (l leftover : list bool) : list (option bool) * (list bool * list bool) :=
  match ops with
  | [] => ([], (l, leftover))
  | VPush b :: ops' => let s := leftover_push b l leftover in leftover_ops ops' (fst s) (snd s)
  | VPop :: ops' =>
      let s := leftover_pop l leftover in
      let r := leftover_ops ops' (fst s) (snd s) in
      ((match l with [] => None | _ => Some (last l false) end) :: fst r, snd r)
  end.

(** No zero is pushed where a one is left over. *)
Fixpoint no_stale_one (ops : list vec_op) (l leftover : list bool) : Prop :=
  match ops with
  | [] => True
  | VPush b :: ops' =>
      (hd_error leftover = Some true -> b = true)
      /\ let s := leftover_push b l leftover in no_stale_one ops' (fst s) (snd s)
  | VPop :: ops' => let s := leftover_pop l leftover in no_stale_one ops' (fst s) (snd s)
  end.
