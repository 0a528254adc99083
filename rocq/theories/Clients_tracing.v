(** What C65 and C66 talk about.  Nothing here models code of the repository. *)
From Verif Require Import Base M_lib Spec.
Local Open Scope N_scope.

(** The codes stop exactly where the data ends (the last one may reach beyond it), and every literal is the
    byte of the data at its place. *)
Fixpoint fits (data : list N) (pos : nat) (codes : list Code) : Prop :=
  match codes with
  | [] => (List.length data <= pos)%nat
  | Literal b :: codes' => nth_error data pos = Some b /\ fits data (pos + 1) codes'
  | Reference r :: codes' => (pos < List.length data)%nat /\ fits data (pos + N.to_nat (ref_len r)) codes'
  end.

(** No compressed block comes after other output. *)
Definition first_compressed (blocks : list Block) : Prop :=
  forall before b after, blocks = before ++ b :: after ->
    flat_map block_codes before = [] \/ exists data, b = Uncompressed data.
