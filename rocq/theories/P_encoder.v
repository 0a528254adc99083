(** Properties C58-C63: which encoder a technique is (lib/src/technique.rs, lookahead.rs, picker.rs, wams.rs,
    trace.rs, tracer.rs).  The encoders are specified in Spec_encoder.v. *)
From Verif Require Import Base M_lib M_all_refs M_technique M_trace Spec Clients Spec_encoder Clients_encoder L_P_encoder L_P_spicy L_P_encoder2.
Local Open Scope N_scope.

(** C58: following the guesses gives exactly the codes of the specified encoder with the configuration's
    parameters. *)
Theorem C58_guesses_are_the_encoder : forall config preroll data limit refs codes n,
  bytes_ok preroll -> bytes_ok data -> with_sixteen preroll data limit = Ok refs ->
  (restore (repeat Correct n) (mkTechnique config refs) = Ok codes
   <-> encoder_of (preroll ++ data) config limit (List.length preroll) codes /\ (List.length codes <= n)%nat).
Proof. exact C58_lemma_restore. Qed.
Print Assumptions C58_guesses_are_the_encoder.

(** C58: a trace is all correct exactly when the codes are the specified encoder's. *)
Theorem C58_correct_trace : forall config preroll data limit refs codes,
  bytes_ok preroll -> bytes_ok data -> with_sixteen preroll data limit = Ok refs -> encodes preroll data codes ->
  (trace codes (mkTechnique config refs) = Ok (repeat Correct (List.length codes))
   <-> encoder_of (preroll ++ data) config limit (List.length preroll) codes).
Proof. exact C58_lemma_trace. Qed.
Print Assumptions C58_correct_trace.

(** C58: at a gzip level [try_gzip] answers all correct exactly for the greedy encoder with gzip's parameters. *)
Theorem C58_try_gzip : forall level preroll data codes,
  1 <= level <= 9 -> bytes_ok preroll -> bytes_ok data -> Forall code_ok codes -> encodes preroll data codes ->
  (try_gzip level preroll data codes = Ok (repeat Correct (List.length codes))
   <-> gzip_greedy (preroll ++ data) level (List.length preroll) codes).
Proof. exact C58_lemma_gzip. Qed.
Print Assumptions C58_try_gzip.

(** C58: there is exactly one such encoding, and it decodes to the data. *)
Theorem C58_one_encoding : forall level preroll data, 1 <= level <= 9 -> bytes_ok preroll -> bytes_ok data ->
  exists codes, gzip_greedy (preroll ++ data) level (List.length preroll) codes
    /\ encodes preroll data codes /\ Forall code_ok codes
    /\ forall other, gzip_greedy (preroll ++ data) level (List.length preroll) other -> other = codes.
Proof. exact C58_lemma_unique. Qed.
Print Assumptions C58_one_encoding.

(** C58: the configuration [spicy] is the three-step encoder with the search of gzip's best level, whatever the limit of
    the table. *)
Theorem C58_spicy : forall config preroll data limit refs codes,
  Config_spicy = Ok config -> bytes_ok preroll -> bytes_ok data ->
  with_sixteen preroll data limit = Ok refs -> encodes preroll data codes ->
  (trace codes (mkTechnique config refs) = Ok (repeat Correct (List.length codes))
   <-> encoder (preroll ++ data) None
         (fun runs => three_choice (preroll ++ data)
            (match_at (preroll ++ data) (mkSearch (N.to_nat limit) (N.to_nat 4096) 258 true) runs))
         [] (List.length preroll) codes).
Proof. exact C58_lemma_spicy. Qed.
Print Assumptions C58_spicy.

(** A match of 3 gives way to one of 5 a byte later. *)
Example C58_spicy_case :
  match Config_spicy, with_sixteen [] [0; 97; 98; 99; 9; 98; 99; 100; 101; 102; 2; 97; 98; 99; 100; 101; 102] 16 with
  | Ok config, Ok refs =>
      trace (map Literal [0; 97; 98; 99; 9; 98; 99; 100; 101; 102; 2] ++ [Literal 97; Reference (mkRef 7 2)]) (mkTechnique config refs)
      = Ok (repeat Correct 13)
  | _, _ => False
  end.
Proof. vm_compute. reflexivity. Qed.

(** C58: the default configuration is the greedy encoder of level 6. *)
Theorem C58_default : forall config preroll data refs codes,
  Config_gzip_16_default = Ok config -> bytes_ok preroll -> bytes_ok data ->
  with_sixteen preroll data 65535 = Ok refs -> encodes preroll data codes ->
  (trace codes (mkTechnique config refs) = Ok (repeat Correct (List.length codes))
   <-> gzip_greedy (preroll ++ data) 6 (List.length preroll) codes).
Proof. exact C58_lemma_default. Qed.
Print Assumptions C58_default.

Example C58_default_case :
  match Config_gzip_16_default, with_sixteen [] [0; 97; 98; 99; 9; 98; 99; 100; 101; 102; 2; 97; 98; 99; 100; 101; 102] 65535 with
  | Ok config, Ok refs =>
      trace (map Literal [0; 97; 98; 99; 9; 98; 99; 100; 101; 102; 2] ++ [Reference (mkRef 10 0); Reference (mkRef 7 0)]) (mkTechnique config refs)
      = Ok (repeat Correct 13)
  | _, _ => False
  end.
Proof. vm_compute. reflexivity. Qed.

(** A lazy encoder that defers, and a match whose inside is not used later. *)
Example C58_case :
  (exists refs, with_sixteen [] [0; 1;2;3;9; 2;3;4;5;8; 1;2;3;4;5] 99 = Ok refs
   /\ restore (repeat Correct 20) (mkTechnique (mkConfig true LGzip Longest (mkWams 258 16 None None)) refs)
      = Ok [Literal 0; Literal 1; Literal 2; Literal 3; Literal 9; Literal 2; Literal 3; Literal 4; Literal 5; Literal 8; Literal 1; Reference (mkRef 6 1)])
  /\ encodes [7; 1; 2; 3; 4; 5] [1; 2; 3; 4; 5; 2; 3; 4; 5] [Reference (mkRef 5 2); Reference (mkRef 9 1)]
  /\ Forall code_ok [Reference (mkRef 5 2); Reference (mkRef 9 1)]
  /\ try_gzip 1 [7; 1; 2; 3; 4; 5] [1; 2; 3; 4; 5; 2; 3; 4; 5] [Reference (mkRef 5 2); Reference (mkRef 9 1)]
     = Ok (repeat Correct 2).
Proof.
  split.
  - eexists. split; [vm_compute; reflexivity|]. vm_compute. reflexivity.
  - split; [vm_compute; reflexivity|]. split; [repeat constructor; unfold ref_ok; cbn; lia|]. vm_compute. reflexivity.
Qed.

(** C59: after any codes, the scanner is behind all they stand for, and exactly the insides of the matches
    longer than the limit are hidden. *)
Theorem C59_feedback_history : forall config refs codes,
  let s := fold_left (feedback (mkTechnique config refs)) codes (scanner (mkTechnique config refs)) in
  sc_pos s = (List.length (ar_preroll refs) + codes_len codes)%nat
  /\ sc_obscured s = long_runs (insert_only_below_length (cfg_wams config)) (List.length (ar_preroll refs)) codes.
Proof. exact C59_lemma. Qed.
Print Assumptions C59_feedback_history.

Example C59_case : long_runs (Some 4) 10 [Literal 1; Reference (mkRef 3 1); Reference (mkRef 3 2); Literal 5; Reference (mkRef 9 255)]
  = [(15%nat, 5); (21%nat, 258)].
Proof. vm_compute. reflexivity. Qed.

(** C60: at levels 4 to 9 the nearest distances are limited as documented and in no other way.  Missing from
    the full property: levels 1 to 3, where it is false (below). *)
Theorem C60_documented_limit_partial : forall level preroll data codes,
  4 <= level <= 9 -> bytes_ok preroll -> bytes_ok data -> Forall code_ok codes -> encodes preroll data codes ->
  (try_gzip level preroll data codes = Ok (repeat Correct (List.length codes))
   <-> documented_greedy (preroll ++ data) level (List.length preroll) codes).
Proof. exact C60_lemma. Qed.
Print Assumptions C60_documented_limit_partial.

Example C60_case : encodes [] [9; 1; 2; 3; 1; 2; 3] [Literal 9; Literal 1; Literal 2; Literal 3; Reference (mkRef 3 0)]
  /\ try_gzip 5 [] [9; 1; 2; 3; 1; 2; 3] [Literal 9; Literal 1; Literal 2; Literal 3; Reference (mkRef 3 0)] = Ok (repeat Correct 5).
Proof. split; vm_compute; reflexivity. Qed.

(** C60 is false of the code at level 2: a match among the nearest eight is not found, because only five
    positions are looked at. *)
Theorem C60_documented_limit_refuted : exists level data codes hints,
  1 <= level <= 9 /\ bytes_ok data /\ Forall code_ok codes /\ encodes [] data codes
  /\ documented_greedy data level 0 codes
  /\ try_gzip level [] data codes = Ok hints /\ ~ (forall h, In h hints -> h = Correct).
Proof. exact C60_lemma_refuted. Qed.
Print Assumptions C60_documented_limit_refuted.

(** C60 is false at each of the levels 1 to 3; at level 1 because candidates are counted before other triples with
    the same hash are dropped. *)
Theorem C60_low_levels_refuted : forall level, 1 <= level <= 3 -> exists data codes hints,
  bytes_ok data /\ Forall code_ok codes /\ encodes [] data codes
  /\ documented_greedy data level 0 codes
  /\ try_gzip level [] data codes = Ok hints /\ ~ (forall h, In h hints -> h = Correct).
Proof. exact C60_lemma_low_refuted. Qed.
Print Assumptions C60_low_levels_refuted.

(** C61 is false of the code: codes of gzip's lazy encoder are not recognised at the lazy levels. *)
Theorem C61_lazy_levels_refuted : exists level data codes hints,
  4 <= level <= 9 /\ bytes_ok data /\ Forall code_ok codes /\ encodes [] data codes
  /\ gzip_lazy data level 0 codes
  /\ try_gzip level [] data codes = Ok hints /\ ~ (forall h, In h hints -> h = Correct).
Proof. exact C61_lemma_refuted. Qed.
Print Assumptions C61_lazy_levels_refuted.

(** C61, what the code does instead: no level ever defers a match. *)
Theorem C61_always_greedy_partial : forall level c preroll data limit refs runs pos,
  Config_gzip level = Ok c -> with_sixteen preroll data limit = Ok refs -> (pos < List.length (preroll ++ data))%nat ->
  exists code, sc_codes (mkTechnique c refs) (mkScanner runs pos) = Ok [code].
Proof. exact C61_lemma_greedy. Qed.
Print Assumptions C61_always_greedy_partial.

(** A match of 3 bytes where waiting for one byte would give 5: level 9 takes the 3 bytes. *)
Example C61_case : exists c refs, Config_gzip 9 = Ok c /\ with_sixteen [] [9; 1; 2; 3; 8; 2; 3; 4; 5; 6; 7; 1; 2; 3; 4; 5; 6] 65535 = Ok refs
  /\ sc_codes (mkTechnique c refs) (mkScanner [] 11) = Ok [Reference (mkRef 10 0)]
  /\ sc_codes (mkTechnique c refs) (mkScanner [] 12) = Ok [Reference (mkRef 7 2)].
Proof. do 2 eexists. split; [vm_compute; reflexivity|]. split; [vm_compute; reflexivity|]. split; vm_compute; reflexivity. Qed.

(** C62: while holding a match longer (shorter) than the apathy length, a quarter (all) of the distances are
    tried.  Missing from the full property: exactly that length, for which it is false (below), and lengths
    below the abort length (C53). *)
Theorem C62_apathy_partial : forall config preroll data limit refs la runs pos known,
  with_sixteen preroll data limit = Ok refs -> wams_lookahead (cfg_wams config) = Some la ->
  (pos < List.length (preroll ++ data))%nat -> abort_above_length la <= known -> known <> apathetic_above_length la ->
  exists literal found, best_candidate_better_than (mkTechnique config refs) runs pos (Some known) = Ok (literal, found)
    /\ nth_error (preroll ++ data) pos = Some literal
    /\ forall r, found = Some r <->
         match_at (preroll ++ data)
           (mkSearch (N.to_nat limit)
              (if apathetic_above_length la <=? known then (limit_count_of_distances (cfg_wams config) / 4)%nat
               else limit_count_of_distances (cfg_wams config))
              (quit_search_above_length (cfg_wams config)) (match cfg_picker config with Longest => false | DropFarThrees => true end))
           runs pos r.
Proof. exact C62_lemma. Qed.
Print Assumptions C62_apathy_partial.

Example C62_case : exists refs, with_sixteen [] [0; 1; 2; 3; 4; 5; 1; 2; 3; 9; 1; 2; 3; 4] 65535 = Ok refs
  /\ best_candidate_better_than (mkTechnique (mkConfig true LGzip Longest (mkWams 16 4 None (Some (mkLookaheadConfig 4 4)))) refs) [] 10 (Some 5)
     = Ok (1, Some (mkRef 4 0)).
Proof. eexists. split; [vm_compute; reflexivity|]. vm_compute. reflexivity. Qed.

(** C62 is false of the code at exactly the apathy length: distances beyond the first quarter are tried. *)
Theorem C62_apathy_refuted : exists config data refs la pos known literal r,
  with_sixteen [] data 65535 = Ok refs /\ wams_lookahead (cfg_wams config) = Some la
  /\ abort_above_length la <= known /\ apathetic_above_length la <= known
  /\ best_candidate_better_than (mkTechnique config refs) [] pos (Some known) = Ok (literal, Some r)
  /\ ~ match_at data
         (mkSearch (N.to_nat 65535) (limit_count_of_distances (cfg_wams config) / 4)
            (quit_search_above_length (cfg_wams config)) (match cfg_picker config with Longest => false | DropFarThrees => true end))
         [] pos r.
Proof. exact C62_lemma_refuted. Qed.
Print Assumptions C62_apathy_refuted.

(** C62, exactly what is searched with a match of any length in hand: nothing below the abort length, a quarter
    of the distances strictly above the apathy length, otherwise all of them. *)
Theorem C62_exactly : forall config preroll data limit refs la runs pos known,
  with_sixteen preroll data limit = Ok refs -> wams_lookahead (cfg_wams config) = Some la ->
  (pos < List.length (preroll ++ data))%nat ->
  exists literal found, best_candidate_better_than (mkTechnique config refs) runs pos (Some known) = Ok (literal, found)
    /\ nth_error (preroll ++ data) pos = Some literal
    /\ forall r, found = Some r <->
         abort_above_length la <= known
         /\ match_at (preroll ++ data)
              (mkSearch (N.to_nat limit)
                 (if apathetic_above_length la <? known then (limit_count_of_distances (cfg_wams config) / 4)%nat
                  else limit_count_of_distances (cfg_wams config))
                 (quit_search_above_length (cfg_wams config)) (match cfg_picker config with Longest => false | DropFarThrees => true end))
              runs pos r.
Proof. exact C62_exactly_lemma. Qed.
Print Assumptions C62_exactly.

(** C63 is false of the code: without the first-byte bug a match with the start of the data is still not found. *)
Theorem C63_first_byte_refuted : exists config data refs,
  first_byte_bug config = false /\ Config_spicy = Ok config /\ with_sixteen [] data 65535 = Ok refs
  /\ longest_match data 4 4 3 /\ sc_codes (mkTechnique config refs) (mkScanner [] 4) = Ok [Literal 1].
Proof. exact C63_lemma_refuted. Qed.
Print Assumptions C63_first_byte_refuted.

(** C63, what the code does instead: the setting makes no difference to any guess, to tracing, restoring or a trace run. *)
Theorem C63_setting_ignored_partial : forall l p wams a b,
  (forall refs s, sc_codes (mkTechnique (mkConfig a l p wams) refs) s = sc_codes (mkTechnique (mkConfig b l p wams) refs) s)
  /\ (forall refs codes, trace codes (mkTechnique (mkConfig a l p wams) refs) = trace codes (mkTechnique (mkConfig b l p wams) refs))
  /\ (forall refs hints, restore hints (mkTechnique (mkConfig a l p wams) refs) = restore hints (mkTechnique (mkConfig b l p wams) refs))
  /\ (forall preroll data codes, tracer_try (mkConfig a l p wams) preroll data codes = tracer_try (mkConfig b l p wams) preroll data codes).
Proof. exact C63_lemma. Qed.
Print Assumptions C63_setting_ignored_partial.

Example C63_case : exists refs, with_sixteen [] [1; 2; 3; 9; 1; 2; 3] 65535 = Ok refs /\ forall bug,
  sc_codes (mkTechnique (mkConfig bug LGreedy Longest (mkWams 258 16 None None)) refs) (mkScanner [] 4) = Ok [Literal 1]
  /\ restore (repeat Correct 7) (mkTechnique (mkConfig bug LGreedy Longest (mkWams 258 16 None None)) refs) = Ok (map Literal [1; 2; 3; 9; 1; 2; 3]).
Proof. eexists. split; [vm_compute; reflexivity|]. intros []; split; vm_compute; reflexivity. Qed.
