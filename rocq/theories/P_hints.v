(** Property C81: restoring from hints that need not come from a trace. *)
From Verif Require Import Base M_bit M_lib M_all_refs M_technique M_trace Spec Clients Clients_restore Clients_hints L_P_hints L_P_hints2 L_P_hints3 L_P_hints4.
Local Open Scope N_scope.

(** C81: whatever the hints, [restore] ends.  The codes it returns follow a prefix of the hints, one by one, up to the
    end of the data.  Otherwise it stops because the hints do not reach that far, or, with a preroll, because a literal
    is looked up past the end of the data. *)
Theorem C81_restore_any_hints : forall config preroll data limit refs hints,
  bytes_ok preroll -> bytes_ok data -> with_sixteen preroll data limit = Ok refs ->
  (forall codes, restore hints (mkTechnique config refs) = Ok codes ->
     exists used rest stop, hints = used ++ rest /\ follows preroll data (List.length preroll) used codes stop
       /\ (List.length (preroll ++ data) <= stop)%nat)
  /\ ((exists codes, restore hints (mkTechnique config refs) = Ok codes)
      \/ restore hints (mkTechnique config refs) = Panic "not out of data"
      \/ restore hints (mkTechnique config refs) = Panic "index out of bounds" /\ preroll <> [] /\ In ActuallyLiteral hints).
Proof. exact C81_lemma. Qed.
Print Assumptions C81_restore_any_hints.

(** C81: hints beyond those used make no difference. *)
Theorem C81_further_hints : forall config preroll data limit refs hints codes more,
  bytes_ok preroll -> bytes_ok data -> with_sixteen preroll data limit = Ok refs ->
  restore hints (mkTechnique config refs) = Ok codes ->
  restore (firstn (List.length codes) hints ++ more) (mkTechnique config refs) = Ok codes.
Proof. exact C81_lemma_enough. Qed.
Print Assumptions C81_further_hints.

(** C81: "not out of data" means what it says: with enough further hints the codes go on beyond the hints. *)
Theorem C81_too_few_hints : forall config preroll data limit refs hints n,
  bytes_ok preroll -> bytes_ok data -> with_sixteen preroll data limit = Ok refs -> (List.length data <= n)%nat ->
  (restore hints (mkTechnique config refs) = Panic "not out of data"
   <-> exists codes, restore (hints ++ repeat Correct n) (mkTechnique config refs) = Ok codes /\ (List.length hints < List.length codes)%nat).
Proof. exact C81_lemma_too_few_iff. Qed.
Print Assumptions C81_too_few_hints.

(** C81: the other panic happens exactly if some hint asks for a literal at a position of preroll and data, reached by
    the codes of the hints before it, that is past the end of the data counted without the preroll. *)
Theorem C81_literal_past_the_end : forall config preroll data limit refs hints,
  bytes_ok preroll -> bytes_ok data -> with_sixteen preroll data limit = Ok refs ->
  (restore hints (mkTechnique config refs) = Panic "index out of bounds"
   <-> exists before after codes, hints = before ++ ActuallyLiteral :: after
         /\ restore (before ++ repeat Correct (List.length data)) (mkTechnique config refs) = Ok codes
         /\ let pos := (List.length preroll + codes_bytes (firstn (List.length before) codes))%nat in
            (List.length data <= pos < List.length preroll + List.length data)%nat).
Proof. exact C81_lemma_past_end. Qed.
Print Assumptions C81_literal_past_the_end.

(** C81: the codes encode the data exactly if the references that were hinted are right for the data. *)
Theorem C81_encodes_exactly : forall config data limit refs hints codes,
  bytes_ok data -> with_sixteen [] data limit = Ok refs -> restore hints (mkTechnique config refs) = Ok codes ->
  (encodes [] data codes
   <-> forall i r, (i < List.length codes)%nat -> nth_error hints i = Some (Actually r) -> right_code data (codes_bytes (firstn i codes)) (Reference r)).
Proof. exact C81_lemma_decodes. Qed.
Print Assumptions C81_encodes_exactly.

(** C81: with a preroll, the codes encode the data exactly if all that was hinted, literals too, is right for the data. *)
Theorem C81_encodes_exactly_after_a_preroll : forall config preroll data limit refs hints codes,
  bytes_ok preroll -> bytes_ok data -> with_sixteen preroll data limit = Ok refs -> restore hints (mkTechnique config refs) = Ok codes ->
  (encodes preroll data codes
   <-> forall i h c, nth_error hints i = Some h -> h <> Correct -> nth_error codes i = Some c ->
       right_code (preroll ++ data) (List.length preroll + codes_bytes (firstn i codes)) c).
Proof. exact C81_lemma_decodes_any. Qed.
Print Assumptions C81_encodes_exactly_after_a_preroll.

Example C81_preroll_literal_case :
  match with_sixteen [7; 8] [5; 6; 5; 7; 8; 9] 9 with
  | Ok refs =>
      restore [Correct; ActuallyLiteral; Correct; Correct; Correct; Correct] (mkTechnique (mkConfig false LGreedy Longest (mkWams 258 16 None None)) refs)
        = Ok [Literal 5; Literal 7; Literal 5; Literal 7; Literal 8; Literal 9]
      /\ restore [ActuallyLiteral; Correct; Correct; Correct; Correct; Correct] (mkTechnique (mkConfig false LGreedy Longest (mkWams 258 16 None None)) refs)
        = Ok [Literal 5; Literal 6; Literal 5; Literal 7; Literal 8; Literal 9]
  | _ => False
  end.
Proof. vm_compute. split; reflexivity. Qed.

(** C81: the code of a Correct hint is the technique's guess after the codes so far (greedy techniques, as all the gzip
    levels are; the others guess several codes at once). *)
Theorem C81_correct_is_the_guess : forall config preroll data limit refs hints codes i c,
  with_sixteen preroll data limit = Ok refs -> cfg_lookahead config = LGreedy ->
  restore hints (mkTechnique config refs) = Ok codes -> nth_error hints i = Some Correct -> nth_error codes i = Some c ->
  sc_codes (mkTechnique config refs) (fold_left (feedback (mkTechnique config refs)) (firstn i codes) (scanner (mkTechnique config refs))) = Ok [c].
Proof. exact C81_lemma_guess. Qed.
Print Assumptions C81_correct_is_the_guess.

(** C81: for every technique, it is a code of some guess made after the codes before, all of which up to it was correct. *)
Theorem C81_correct_was_guessed : forall config preroll data limit refs hints codes i c,
  with_sixteen preroll data limit = Ok refs ->
  restore hints (mkTechnique config refs) = Ok codes -> nth_error hints i = Some Correct -> nth_error codes i = Some c ->
  exists j guess, (j <= i)%nat
    /\ sc_codes (mkTechnique config refs) (fold_left (feedback (mkTechnique config refs)) (firstn j codes) (scanner (mkTechnique config refs))) = Ok guess
    /\ forall k, (j <= k <= i)%nat -> nth_error hints k = Some Correct /\ nth_error codes k = nth_error guess (k - j).
Proof. exact C81_lemma_guessed. Qed.
Print Assumptions C81_correct_was_guessed.

(** The hints of one file used with another: too few, more than enough, and with a reference that is wrong there. *)
Example C81_case : exists refs, with_sixteen [] [5; 1; 2; 3; 4; 9; 2; 3; 4] 9 = Ok refs
  /\ restore [Correct; Correct; Correct; ActuallyLiteral] (mkTechnique (mkConfig false LGreedy Longest (mkWams 258 16 None None)) refs) = Panic "not out of data"
  /\ restore [Correct; Correct; Correct; ActuallyLiteral; Correct; Correct; Correct; Correct; Correct] (mkTechnique (mkConfig false LGreedy Longest (mkWams 258 16 None None)) refs)
     = Ok [Literal 5; Literal 1; Literal 2; Literal 3; Literal 4; Literal 9; Reference (mkRef 4 0)]
  /\ restore [Correct; Correct; Correct; Correct; Correct; Actually (mkRef 4 0); ActuallyLiteral] (mkTechnique (mkConfig false LGreedy Longest (mkWams 258 16 None None)) refs)
     = Ok [Literal 5; Literal 1; Literal 2; Literal 3; Literal 4; Reference (mkRef 4 0); Literal 4]
  /\ ~ encodes [] [5; 1; 2; 3; 4; 9; 2; 3; 4] [Literal 5; Literal 1; Literal 2; Literal 3; Literal 4; Reference (mkRef 4 0); Literal 4].
Proof. eexists. split; [vm_compute; reflexivity|]. split; [vm_compute; reflexivity|]. split; [vm_compute; reflexivity|]. split; [vm_compute; reflexivity|]. vm_compute. discriminate. Qed.

(** With a preroll, a literal can be looked up past the end. *)
Example C81_preroll_case : exists refs, with_sixteen [7; 7; 7] [1; 2; 3] 9 = Ok refs
  /\ restore [Correct; ActuallyLiteral; Correct] (mkTechnique (mkConfig false LGreedy Longest (mkWams 258 16 None None)) refs) = Panic "index out of bounds"
  /\ restore ([Correct] ++ repeat Correct 3) (mkTechnique (mkConfig false LGreedy Longest (mkWams 258 16 None None)) refs) = Ok [Literal 1; Literal 2; Literal 3].
Proof. eexists. split; [vm_compute; reflexivity|]. split; vm_compute; reflexivity. Qed.
