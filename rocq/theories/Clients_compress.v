(** A compressor made of the library's public functions only (C100): each piece of the content is restored from hints that
    all say [Correct], knowing the 32768 bytes before it.  Nothing here models code of the repository. *)
From Verif Require Import Base M_lib M_all_refs M_technique M_trace Spec.
Local Open Scope N_scope.
Local Open Scope model_scope.

Fixpoint guess_pieces (config : Config) (limit : N) (before : list N) (pieces : list (list N)) : outcome (list (list Code)) :=
  match pieces with
  | [] => Ok []
  | piece :: pieces' =>
      refs <-? with_sixteen (lastn (N.to_nat 32768) before) piece limit ;;
      codes <-? restore (repeat Correct (List.length piece)) (mkTechnique config refs) ;;
      more <-? guess_pieces config limit (before ++ piece) pieces' ;;
      Ok (codes :: more)
  end.
