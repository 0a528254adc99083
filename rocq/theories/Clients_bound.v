(** Sizes the bounds of C64 talk about.  Nothing here models code of the repository. *)
From Verif Require Import Base M_lib M_parse Spec.
Local Open Scope N_scope.

(** The blocks among the results of some calls of [next]. *)
Definition blocks_of (results : list (outcome (option Block))) : list Block :=
  flat_map (fun o => match o with Ok (Some b) => [b] | _ => [] end) results.

(** How many bytes a code or block decompresses to. *)
Definition code_size (c : Code) : N := match c with Literal _ => 1 | Reference r => ref_len r end.
Definition block_size (b : Block) : N := fold_right N.add 0 (map code_size (block_codes b)).
Definition total_size (blocks : list Block) : N := fold_right N.add 0 (map block_size blocks).

(** How many codes a compressed block holds, or how many bytes a stored one. *)
Definition total_codes (blocks : list Block) : N :=
  N.of_nat (List.length (flat_map block_codes blocks)).
