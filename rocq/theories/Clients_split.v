(** Tracing a file whole and block by block (C103): client programs of the library, not code of the repository. *)
From Verif Require Import Base M_bit M_lib M_all_refs M_technique M_trace.
Local Open Scope N_scope.
Local Open Scope model_scope.

(** The hints for the codes of [data], when [preroll] came before it. *)
Definition hints_of (config : Config) (limit : N) (preroll data : list N) (codes : list Code) : outcome (list Trace) :=
  refs <-? with_sixteen preroll data limit ;;
  trace codes (mkTechnique config refs).

(** The same for one block after another, each of which comes after all that was before it. *)
Fixpoint block_hints (config : Config) (limit : N) (preroll : list N) (blocks : list (list N * list Code)) : outcome (list (list Trace)) :=
  match blocks with
  | [] => Ok []
  | (data, codes) :: blocks' =>
      hints <-? hints_of config limit preroll data codes ;;
      more <-? block_hints config limit (preroll ++ data) blocks' ;;
      Ok (hints :: more)
  end.
