(** Property C96: which gzip levels foresee a code (lib/src/tracer.rs, technique.rs, all_refs.rs, wams.rs). *)
From Verif Require Import Base M_bit M_lib M_all_refs M_technique M_trace Spec Spec_encoder L_P_levels.
Local Open Scope N_scope.

(** C96: a literal foreseen at one of the levels 4 to 9 is foreseen at every lower one of them.  Missing from the full
    property: levels 1 to 3, for which it is false (below). *)
Theorem C96_literal_partial : forall l1 l2 preroll data codes hints1 hints2 k b, 4 <= l1 -> l1 <= l2 -> l2 <= 9 -> bytes_ok preroll -> bytes_ok data ->
  try_gzip l1 preroll data codes = Ok hints1 -> try_gzip l2 preroll data codes = Ok hints2 -> nth_error codes k = Some (Literal b) ->
  nth_error hints2 k = Some Correct -> nth_error hints1 k = Some Correct.
Proof. exact C96_lemma_literal. Qed.
Print Assumptions C96_literal_partial.

(** C96: a match foreseen at two of the levels 4 to 9 is foreseen at those in between.  Missing as above. *)
Theorem C96_match_partial : forall l1 l2 l3 preroll data codes hints1 hints2 hints3 k r, 4 <= l1 -> l1 <= l2 -> l2 <= l3 -> l3 <= 9 -> bytes_ok preroll -> bytes_ok data ->
  try_gzip l1 preroll data codes = Ok hints1 -> try_gzip l2 preroll data codes = Ok hints2 -> try_gzip l3 preroll data codes = Ok hints3 ->
  nth_error codes k = Some (Reference r) ->
  nth_error hints1 k = Some Correct -> nth_error hints3 k = Some Correct -> nth_error hints2 k = Some Correct.
Proof. exact C96_lemma_match. Qed.
Print Assumptions C96_match_partial.

(** C96: levels 1 to 3, as long as no match was longer than 4 bytes. *)
Theorem C96_low_levels_partial : forall l1 l2 preroll data codes hints1 hints2 k, 1 <= l1 -> l1 <= l2 -> l2 <= 3 -> bytes_ok preroll -> bytes_ok data ->
  try_gzip l1 preroll data codes = Ok hints1 -> try_gzip l2 preroll data codes = Ok hints2 ->
  (forall r, In (Reference r) (firstn k codes) -> ref_len r <= 4) ->
  (forall b, nth_error codes k = Some (Literal b) -> nth_error hints2 k = Some Correct -> nth_error hints1 k = Some Correct)
  /\ (forall l3 hints3 r, l2 <= l3 -> l3 <= 3 -> try_gzip l3 preroll data codes = Ok hints3 -> nth_error codes k = Some (Reference r) ->
      nth_error hints1 k = Some Correct -> nth_error hints3 k = Some Correct -> nth_error hints2 k = Some Correct).
Proof. exact C96_lemma_low. Qed.
Print Assumptions C96_low_levels_partial.

(** C96: a file recreated without any wrong guess at two of the levels 4 to 9 is recreated so at those in between. *)
Theorem C96_files : forall l1 l2 l3 preroll data codes, 4 <= l1 -> l1 <= l2 -> l2 <= l3 -> l3 <= 9 -> bytes_ok preroll -> bytes_ok data ->
  Forall code_ok codes -> encodes preroll data codes ->
  try_gzip l1 preroll data codes = Ok (repeat Correct (List.length codes)) -> try_gzip l3 preroll data codes = Ok (repeat Correct (List.length codes)) ->
  try_gzip l2 preroll data codes = Ok (repeat Correct (List.length codes)).
Proof. exact C96_lemma_files. Qed.
Print Assumptions C96_files.

(** C96: from the high levels to the low ones, whatever the matches before: a literal foreseen at one of the levels 4 to 9
    is foreseen at the levels 1 to 3, if its three bytes did not occur more than 4096 bytes earlier. *)
Theorem C96_across_partial : forall l1 l2 preroll data codes hints1 hints2 k b, 1 <= l1 <= 3 -> 4 <= l2 <= 9 -> bytes_ok preroll -> bytes_ok data ->
  try_gzip l1 preroll data codes = Ok hints1 -> try_gzip l2 preroll data codes = Ok hints2 -> nth_error codes k = Some (Literal b) ->
  (let text := preroll ++ data in let pos := (List.length preroll + codes_len (firstn k codes))%nat in
   forall q, (1 <= q)%nat -> (q + N.to_nat 4096 < pos)%nat -> firstn 3 (skipn q text) <> firstn 3 (skipn pos text)) ->
  nth_error hints2 k = Some Correct -> nth_error hints1 k = Some Correct.
Proof. exact C96_lemma_across. Qed.
Print Assumptions C96_across_partial.

(** C96, why: a search allowed to look further, whatever the two configurations, finds a match where the other one does,
    either the same one or one that is longer and further away. *)
Theorem C96_search : forall config1 config2 preroll data limit1 limit2 refs1 refs2 history pos literal r1,
  cfg_picker config1 = cfg_picker config2 ->
  insert_only_below_length (cfg_wams config1) = insert_only_below_length (cfg_wams config2) ->
  (limit_count_of_distances (cfg_wams config1) <= limit_count_of_distances (cfg_wams config2))%nat ->
  quit_search_above_length (cfg_wams config1) <= quit_search_above_length (cfg_wams config2) -> limit1 <= limit2 ->
  with_sixteen preroll data limit1 = Ok refs1 -> with_sixteen preroll data limit2 = Ok refs2 ->
  best_candidate (mkTechnique config1 refs1)
    (sc_obscured (fold_left (feedback (mkTechnique config1 refs1)) history (scanner (mkTechnique config1 refs1)))) pos = Ok (literal, Some r1) ->
  exists r2,
    best_candidate (mkTechnique config2 refs2)
      (sc_obscured (fold_left (feedback (mkTechnique config2 refs2)) history (scanner (mkTechnique config2 refs2)))) pos = Ok (literal, Some r2)
    /\ (r2 = r1 \/ (ref_len r1 < ref_len r2 /\ r_dist r1 < r_dist r2)).
Proof. exact C96_lemma_search. Qed.
Print Assumptions C96_search.

(** C96 is false of the code at the low levels: a literal foreseen at level 2 is not at level 1. *)
Theorem C96_literal_refuted : exists l1 l2 data codes hints1 hints2 k b, 1 <= l1 /\ l1 <= l2 /\ l2 <= 9 /\ bytes_ok data /\ Forall code_ok codes /\ encodes [] data codes
  /\ try_gzip l1 [] data codes = Ok hints1 /\ try_gzip l2 [] data codes = Ok hints2 /\ nth_error codes k = Some (Literal b)
  /\ nth_error hints2 k = Some Correct /\ nth_error hints1 k <> Some Correct.
Proof. exact C96_lemma_refuted. Qed.
Print Assumptions C96_literal_refuted.

(** C96 is false of the code across level 3 and level 4: a stream is recreated without a wrong guess at the levels 3 and 5
    but not at level 4. *)
Theorem C96_files_refuted : exists data codes, bytes_ok data /\ Forall code_ok codes /\ encodes [] data codes
  /\ try_gzip 3 [] data codes = Ok (repeat Correct (List.length codes)) /\ try_gzip 5 [] data codes = Ok (repeat Correct (List.length codes))
  /\ try_gzip 4 [] data codes <> Ok (repeat Correct (List.length codes)).
Proof. exact C96_lemma_match_refuted. Qed.
Print Assumptions C96_files_refuted.

(** A match of 20 bytes behind one of 16: level 4 is content with the nearer one, the levels 6 to 9 are not. *)
Definition C96_text : list N := 99 :: map N.of_nat (seq 0 20) ++ [98] ++ map N.of_nat (seq 0 16) ++ [97] ++ map N.of_nat (seq 0 20).
Definition C96_text_codes : list Code :=
  Literal 99 :: map (fun b => Literal (N.of_nat b)) (seq 0 20) ++ [Literal 98; Reference (mkRef 21 13); Literal 97; Reference (mkRef 38 17)].
Example C96_case :
  bytes_ok C96_text /\ Forall code_ok C96_text_codes /\ encodes [] C96_text C96_text_codes
  /\ nth_error C96_text_codes 24 = Some (Reference (mkRef 38 17)) /\ nth_error C96_text_codes 23 = Some (Literal 97)
  /\ try_gzip 4 [] C96_text C96_text_codes = Ok (repeat Correct 24 ++ [Actually (mkRef 38 17)])
  /\ try_gzip 6 [] C96_text C96_text_codes = Ok (repeat Correct (List.length C96_text_codes))
  /\ try_gzip 7 [] C96_text C96_text_codes = Ok (repeat Correct (List.length C96_text_codes))
  /\ try_gzip 9 [] C96_text C96_text_codes = Ok (repeat Correct (List.length C96_text_codes)).
Proof.
  split; [repeat constructor|]. split; [repeat constructor; unfold code_ok, ref_ok; cbn; lia|]. split; [vm_compute; reflexivity|].
  split; [reflexivity|]. split; [reflexivity|]. split; [vm_compute; reflexivity|]. split; [vm_compute; reflexivity|]. split; vm_compute; reflexivity.
Qed.

(** A literal where three bytes occurred before, foreseen nowhere, and one foreseen at all levels. *)
Example C96_across_case : forall level, In level [1; 2; 3; 4; 9] ->
  try_gzip level [] [9; 1; 2; 3; 8; 1; 2; 3; 7] [Literal 9; Literal 1; Literal 2; Literal 3; Literal 8; Literal 1; Literal 2; Literal 3; Literal 7]
  = Ok [Correct; Correct; Correct; Correct; Correct; ActuallyLiteral; Correct; Correct; Correct].
Proof. intros level [<-|[<-|[<-|[<-|[<-|[]]]]]]; vm_compute; reflexivity. Qed.

(** The search at the last match with both parameters. *)
Example C96_search_case : exists refs, with_sixteen [] C96_text 65535 = Ok refs
  /\ best_candidate (mkTechnique (mkConfig true LGreedy Longest (mkWams 16 16 None None)) refs) [] 39 = Ok (0, Some (mkRef 17 13))
  /\ best_candidate (mkTechnique (mkConfig true LGreedy Longest (mkWams 32 32 None None)) refs) [] 39 = Ok (0, Some (mkRef 38 17)).
Proof. eexists. split; [vm_compute; reflexivity|]. split; vm_compute; reflexivity. Qed.

(** Matches of at most 4 bytes at the low levels. *)
Example C96_low_case : forall level, In level [1; 2; 3] ->
  try_gzip level [] [9; 1; 2; 3; 8; 1; 2; 3; 7; 1; 2; 3] [Literal 9; Literal 1; Literal 2; Literal 3; Literal 8; Reference (mkRef 4 0); Literal 7; Reference (mkRef 8 0)]
  = Ok (repeat Correct 7 ++ [Actually (mkRef 8 0)]).
Proof. intros level [<-|[<-|[<-|[]]]]; vm_compute; reflexivity. Qed.
