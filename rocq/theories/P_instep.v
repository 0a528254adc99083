(** Property C107: hints and codes go in step (lib/src/trace.rs). *)
From Verif Require Import Base M_bit M_lib M_all_refs M_technique M_trace Spec Clients L_P_instep.
Local Open Scope N_scope.
Local Open Scope model_scope.

(** C107: the first hints depend on as many codes only. *)
Theorem C107_trace : forall config preroll data limit refs codes codes' hints hints' n, bytes_ok preroll -> bytes_ok data ->
  with_sixteen preroll data limit = Ok refs ->
  trace codes (mkTechnique config refs) = Ok hints -> trace codes' (mkTechnique config refs) = Ok hints' ->
  firstn n codes = firstn n codes' -> firstn n hints = firstn n hints'.
Proof. exact C107_lemma_trace. Qed.
Print Assumptions C107_trace.

(** C107: the first codes depend on as many hints only: damage to a hint leaves the codes before it as they are. *)
Theorem C107_restore : forall config preroll data limit refs codes codes' hints hints' n, bytes_ok preroll -> bytes_ok data ->
  with_sixteen preroll data limit = Ok refs ->
  restore hints (mkTechnique config refs) = Ok codes -> restore hints' (mkTechnique config refs) = Ok codes' ->
  firstn n hints = firstn n hints' -> firstn n codes = firstn n codes'.
Proof. exact C107_lemma_restore. Qed.
Print Assumptions C107_restore.

(** C107: two encodings of the same data have their first difference where their hints have it. *)
Theorem C107_first_difference : forall config preroll data limit refs codes codes' hints hints' n, bytes_ok preroll -> bytes_ok data ->
  with_sixteen preroll data limit = Ok refs -> encodes preroll data codes -> encodes preroll data codes' ->
  trace codes (mkTechnique config refs) = Ok hints -> trace codes' (mkTechnique config refs) = Ok hints' ->
  (firstn n codes = firstn n codes' <-> firstn n hints = firstn n hints').
Proof. exact C107_lemma_same. Qed.
Print Assumptions C107_first_difference.

(** Two encodings of "abcabcaba" at level 6 that differ from the fourth code on, and so do their hints; restoring from hints damaged at the fourth place. *)
Example C107_case :
  let data := [97; 98; 99; 97; 98; 99; 97; 98; 97] in let abc := [Literal 97; Literal 98; Literal 99] in let cor := [Correct; Correct; Correct] in
  match Config_gzip 6, with_sixteen [] data 65535 with
  | Ok config, Ok refs =>
      let codes := abc ++ [Reference (mkRef 3 1); Literal 98; Literal 97] in
      let codes' := abc ++ [Reference (mkRef 3 2); Literal 97] in
      encodes [] data codes /\ encodes [] data codes'
      /\ trace codes (mkTechnique config refs) = Ok (cor ++ [Actually (mkRef 3 1); Correct; Correct])
      /\ trace codes' (mkTechnique config refs) = Ok (cor ++ [Actually (mkRef 3 2); Correct])
      /\ restore (cor ++ [Actually (mkRef 3 2); Correct]) (mkTechnique config refs) = Ok codes'
      /\ restore (cor ++ [ActuallyLiteral; Correct; Correct]) (mkTechnique config refs) = Ok (abc ++ [Literal 97; Reference (mkRef 3 1); Literal 97])
  | _, _ => False
  end.
Proof. vm_compute. repeat split. Qed.
