(** Property C102: only which bytes are equal matters (lib/src/all_refs.rs, lib/src/technique.rs, lib/src/trace.rs). *)
From Verif Require Import Base M_bit M_lib M_serialise M_all_refs M_technique M_trace Spec Spec_encoder Clients Clients_rename L_P_rename.
Local Open Scope N_scope.
Local Open Scope model_scope.

(** C102: give the bytes of the content other names, one to one.  With a limit no chain reaches, the guess after any history
    is the same, with its literals renamed: bytes that happen to share a hash are never taken for each other, and never hide one another. *)
Theorem C102_guess : forall f config preroll data limit refs refs' history guess,
  renaming f -> bytes_ok preroll -> bytes_ok data -> 32768 <= limit ->
  with_sixteen preroll data limit = Ok refs -> with_sixteen (map f preroll) (map f data) limit = Ok refs' ->
  (List.length preroll + codes_len history < List.length (preroll ++ data))%nat ->
  sc_codes (mkTechnique config refs) (fold_left (feedback (mkTechnique config refs)) history (scanner (mkTechnique config refs))) = Ok guess ->
  sc_codes (mkTechnique config refs') (fold_left (feedback (mkTechnique config refs')) (map (rename f) history) (scanner (mkTechnique config refs')))
  = Ok (map (rename f) guess).
Proof. exact C102_lemma_guess. Qed.
Print Assumptions C102_guess.

Example C102_guess_case :
  let f := fun b => 255 - b in
  renaming f
  /\ match Config_gzip 4, with_sixteen [0; 97; 98; 99; 7] [97; 98; 99; 8] 65535, with_sixteen (map f [0; 97; 98; 99; 7]) (map f [97; 98; 99; 8]) 65535 with
     | Ok config, Ok refs, Ok refs' =>
         sc_codes (mkTechnique config refs) (scanner (mkTechnique config refs)) = Ok [Reference (mkRef 4 0)]
         /\ sc_codes (mkTechnique config refs') (scanner (mkTechnique config refs')) = Ok [Reference (mkRef 4 0)]
         /\ sc_codes (mkTechnique config refs) (fold_left (feedback (mkTechnique config refs)) [Literal 97] (scanner (mkTechnique config refs))) = Ok [Literal 98]
         /\ sc_codes (mkTechnique config refs') (fold_left (feedback (mkTechnique config refs')) [Literal 158] (scanner (mkTechnique config refs'))) = Ok [Literal 157]
     | _, _, _ => False
     end.
Proof. split; [split; intros; Lia.lia|]. vm_compute. repeat split. Qed.

(** C102: so renamed codes are traced to the same hints, or fail to be in the same way. *)
Theorem C102_trace : forall f config preroll data limit refs refs' codes,
  renaming f -> bytes_ok preroll -> bytes_ok data -> 32768 <= limit ->
  with_sixteen preroll data limit = Ok refs -> with_sixteen (map f preroll) (map f data) limit = Ok refs' ->
  (forall b, In (Literal b) codes -> b < 256) ->
  trace (map (rename f) codes) (mkTechnique config refs') = trace codes (mkTechnique config refs).
Proof. exact C102_lemma_trace. Qed.
Print Assumptions C102_trace.

(** C102: and the same hints give the renamed codes back. *)
Theorem C102_restore : forall f config preroll data limit refs refs' hints,
  renaming f -> bytes_ok preroll -> bytes_ok data -> 32768 <= limit ->
  with_sixteen preroll data limit = Ok refs -> with_sixteen (map f preroll) (map f data) limit = Ok refs' ->
  restore hints (mkTechnique config refs') = renamed f (restore hints (mkTechnique config refs)).
Proof. exact C102_lemma_restore. Qed.
Print Assumptions C102_restore.

Example C102_trace_case :
  let f := fun b => 255 - b in
  match Config_gzip 4, with_sixteen [] [97; 98; 99; 98; 99; 98; 99] 65535, with_sixteen [] (map f [97; 98; 99; 98; 99; 98; 99]) 65535 with
  | Ok config, Ok refs, Ok refs' =>
      let codes := [Literal 97; Literal 98; Literal 99; Literal 98; Reference (mkRef 2 0)] in
      let hints := [Correct; Correct; Correct; ActuallyLiteral; Correct] in
      trace codes (mkTechnique config refs) = Ok hints
      /\ trace (map (rename f) codes) (mkTechnique config refs') = Ok hints
      /\ restore hints (mkTechnique config refs') = Ok [Literal 158; Literal 157; Literal 156; Literal 157; Reference (mkRef 2 0)]
  | _, _, _ => False
  end.
Proof. vm_compute. repeat split. Qed.

(** C102: at gzip level 4 and above the level is tried with the same result. *)
Theorem C102_levels : forall f level preroll data codes,
  renaming f -> bytes_ok preroll -> bytes_ok data -> 4 <= level -> (forall b, In (Literal b) codes -> b < 256) ->
  try_gzip level (map f preroll) (map f data) (map (rename f) codes) = try_gzip level preroll data codes.
Proof. exact C102_lemma_levels. Qed.
Print Assumptions C102_levels.

Example C102_levels_case :
  let f := fun b => 255 - b in
  try_gzip 9 [] [97; 98; 99; 98; 99; 98; 99] [Literal 97; Literal 98; Literal 99; Reference (mkRef 2 1)] = Ok (repeat Correct 4)
  /\ try_gzip 9 [] (map f [97; 98; 99; 98; 99; 98; 99]) [Literal 158; Literal 157; Literal 156; Reference (mkRef 2 1)] = Ok (repeat Correct 4).
Proof. vm_compute. repeat split. Qed.

(** C102: at levels 1 to 3, whose tables give up after a few entries with the same hash, other names can make other hints. *)
Theorem C102_low_levels_differ : forall level, 1 <= level <= 3 -> exists f data codes hints hints',
  renaming f /\ bytes_ok data /\ Forall code_ok codes /\ encodes [] data codes
  /\ try_gzip level [] data codes = Ok hints /\ try_gzip level [] (map f data) (map (rename f) codes) = Ok hints' /\ hints <> hints'.
Proof. exact C102_lemma_low. Qed.
Print Assumptions C102_low_levels_differ.

Example C102_low_case : exists f, renaming f /\ f 33 = 34 /\ f 34 = 33 /\ f 1 = 1.
Proof. exists swapped. split; [exact swapped_renaming|]. repeat split. Qed.
