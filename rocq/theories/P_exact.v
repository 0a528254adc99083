(** Property C91: what every single hint says (lib/src/trace.rs, technique.rs).  The encoders are specified in
    Spec_encoder.v, hints and codes for given choices in Clients_exact.v. *)
From Verif Require Import Base M_bit M_lib M_all_refs M_technique M_trace Spec Spec_encoder Clients_encoder Clients_exact L_P_exact.
Local Open Scope N_scope.

(** C91: the hints for any codes, by the choices of the specified encoder. *)
Theorem C91_trace : forall config preroll data limit refs codes hints,
  bytes_ok preroll -> bytes_ok data -> with_sixteen preroll data limit = Ok refs ->
  (trace codes (mkTechnique config refs) = Ok hints
   <-> traced (preroll ++ data) (insert_only_below_length (cfg_wams config)) (choice_of (preroll ++ data) config limit) [] (List.length preroll) codes hints).
Proof. exact C91_lemma_trace. Qed.
Print Assumptions C91_trace.

(** C91: for codes that have no hints tracing panics with one message. *)
Theorem C91_trace_fails : forall config preroll data limit refs codes,
  bytes_ok preroll -> bytes_ok data -> with_sixteen preroll data limit = Ok refs ->
  (exists hints, trace codes (mkTechnique config refs) = Ok hints)
  \/ trace codes (mkTechnique config refs) = Panic "the guesser guessed more than there actually are?".
Proof. exact C91_lemma_fails. Qed.
Print Assumptions C91_trace_fails.

(** C91: the codes for any hints, by the same choices. *)
Theorem C91_restore : forall config preroll data limit refs codes hints,
  bytes_ok preroll -> bytes_ok data -> with_sixteen preroll data limit = Ok refs ->
  (restore hints (mkTechnique config refs) = Ok codes
   <-> restored (preroll ++ data) (insert_only_below_length (cfg_wams config)) (choice_of (preroll ++ data) config limit) data [] (List.length preroll) hints codes).
Proof. exact C91_lemma_restore. Qed.
Print Assumptions C91_restore.

(** C91: there is at most one list of hints for given codes, and at most one list of codes for given hints. *)
Theorem C91_one_trace : forall config preroll data limit codes hints hints', bytes_ok preroll -> bytes_ok data ->
  traced (preroll ++ data) (insert_only_below_length (cfg_wams config)) (choice_of (preroll ++ data) config limit) [] (List.length preroll) codes hints ->
  traced (preroll ++ data) (insert_only_below_length (cfg_wams config)) (choice_of (preroll ++ data) config limit) [] (List.length preroll) codes hints' ->
  hints = hints'.
Proof. exact C91_lemma_one_trace. Qed.
Print Assumptions C91_one_trace.
Theorem C91_one_restore : forall config preroll data limit hints codes codes', bytes_ok preroll -> bytes_ok data ->
  restored (preroll ++ data) (insert_only_below_length (cfg_wams config)) (choice_of (preroll ++ data) config limit) data [] (List.length preroll) hints codes ->
  restored (preroll ++ data) (insert_only_below_length (cfg_wams config)) (choice_of (preroll ++ data) config limit) data [] (List.length preroll) hints codes' ->
  codes = codes'.
Proof. exact C91_lemma_one_restore. Qed.
Print Assumptions C91_one_restore.

(** The lazy encoder goes on with the literal 1 and a match of four bytes; the codes have the literal 1, the literal 2 and
    another match, which is then what the encoder chooses too. *)
Definition C91_data := [0; 1; 2; 3; 9; 2; 3; 4; 5; 8; 1; 2; 3; 4; 5].
Definition C91_codes := [Literal 0; Literal 1; Literal 2; Literal 3; Literal 9; Literal 2; Literal 3; Literal 4; Literal 5; Literal 8; Literal 1; Literal 2; Reference (mkRef 6 0)].
Definition C91_hints := repeat Correct 11 ++ [ActuallyLiteral; Correct].
Definition C91_config := mkConfig true LGzip Longest (mkWams 258 16 None None).

Example C91_case :
  bytes_ok C91_data
  /\ traced C91_data None (choice_of C91_data C91_config 99) [] 0 C91_codes C91_hints
  /\ restored C91_data None (choice_of C91_data C91_config 99) C91_data [] 0 C91_hints C91_codes.
Proof.
  assert (B : bytes_ok C91_data) by repeat constructor. split; [exact B|].
  destruct (with_sixteen [] C91_data 99) as [refs| | |] eqn:E; try (vm_compute in E; discriminate E). split.
  - refine (proj1 (C91_trace C91_config [] C91_data 99 refs C91_codes C91_hints _ B E) _); [constructor|]. vm_compute in E. injection E as <-. vm_compute. reflexivity.
  - refine (proj1 (C91_restore C91_config [] C91_data 99 refs C91_codes C91_hints _ B E) _); [constructor|]. vm_compute in E. injection E as <-. vm_compute. reflexivity.
Qed.
