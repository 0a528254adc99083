(** Property C98: no other hints for the same codes are cheaper (lib/src/trace.rs, serialise_trace.rs, tracer.rs). *)
From Verif Require Import Base M_bit M_lib M_all_refs M_technique M_trace Spec Clients_restore L_P_cheapest L_P_retrace.
Local Open Scope N_scope.

(** C98: whatever hints [restore] turned into codes, [trace] finds hints for these codes: they restore to the same codes,
    differ from the others only in being [Correct] more often and in ending with the data, and take no more bytes.  Missing
    from the full property: techniques that look ahead, for which it is false (below). *)
Theorem C98_cheapest_partial : forall config preroll data limit refs other codes,
  with_sixteen preroll data limit = Ok refs -> cfg_lookahead config = LGreedy ->
  restore other (mkTechnique config refs) = Ok codes ->
  exists hints, trace codes (mkTechnique config refs) = Ok hints /\ restore hints (mkTechnique config refs) = Ok codes
    /\ (List.length hints <= List.length other)%nat
    /\ (forall i h, nth_error hints i = Some h -> h = Correct \/ nth_error other i = Some h)
    /\ forall bytes obytes, st_write hints = Ok bytes -> st_write other = Ok obytes -> (List.length bytes <= List.length obytes)%nat.
Proof. exact C98_lemma. Qed.
Print Assumptions C98_cheapest_partial.

(** C98: of all hints with which a stream can be recreated at a gzip level, those of [try_gzip] are stored in the fewest
    bytes. *)
Theorem C98_levels : forall level config preroll data refs codes hints other bytes obytes,
  try_gzip level preroll data codes = Ok hints -> Config_gzip level = Ok config ->
  with_sixteen preroll data (match insert_only_below_length (cfg_wams config) with Some l => l | None => 65535 end) = Ok refs ->
  restore other (mkTechnique config refs) = Ok codes ->
  st_write hints = Ok bytes -> st_write other = Ok obytes -> (List.length bytes <= List.length obytes)%nat.
Proof. exact C98_lemma_levels. Qed.
Print Assumptions C98_levels.

(** C98: [trace] returns the very hints that were restored exactly if none was left over and none spelled out what would
    have been guessed anyway. *)
Theorem C98_same_hints : forall config preroll data limit refs other codes,
  with_sixteen preroll data limit = Ok refs -> cfg_lookahead config = LGreedy ->
  restore other (mkTechnique config refs) = Ok codes ->
  (trace codes (mkTechnique config refs) = Ok other <->
   List.length other = List.length codes
   /\ forall i c, nth_error codes i = Some c -> nth_error other i <> Some Correct ->
        sc_codes (mkTechnique config refs) (fold_left (feedback (mkTechnique config refs)) (firstn i codes) (scanner (mkTechnique config refs))) <> Ok [c]).
Proof. exact C98_lemma_same. Qed.
Print Assumptions C98_same_hints.

(** C98 is false of a technique that looks ahead: a literal that was guessed right takes fewer bytes when spelled out,
    because the search then starts afresh behind it. *)
Theorem C98_cheapest_refuted : exists config data refs other codes hints bytes obytes,
  Config_spicy = Ok config /\ bytes_ok data /\ with_sixteen [] data 65535 = Ok refs
  /\ encodes [] data codes /\ restore other (mkTechnique config refs) = Ok codes /\ trace codes (mkTechnique config refs) = Ok hints
  /\ st_write hints = Ok bytes /\ st_write other = Ok obytes /\ (List.length obytes < List.length bytes)%nat.
Proof. exact C98_lemma_refuted. Qed.
Print Assumptions C98_cheapest_refuted.

(** C98, the part that holds of every technique: what any hints restored to can be traced again, with no more hints, and
    without a preroll, or where the literals are found (C40), those hints restore to it again. *)
Theorem C98_traced_again : forall config preroll data limit refs other codes,
  bytes_ok preroll -> bytes_ok data -> with_sixteen preroll data limit = Ok refs -> restore other (mkTechnique config refs) = Ok codes ->
  exists hints, trace codes (mkTechnique config refs) = Ok hints
    /\ (List.length hints <= List.length other)%nat
    /\ (restore hints (mkTechnique config refs) = Ok codes <-> literals_found preroll data hints codes)
    /\ (preroll = [] -> restore hints (mkTechnique config refs) = Ok codes).
Proof. exact C98_lemma_retrace. Qed.
Print Assumptions C98_traced_again.

Definition C98_text : list N := [9; 1; 2; 3; 4; 8; 1; 2; 3; 7; 1; 2; 3; 4].
Definition C98_codes : list Code := [Literal 9; Literal 1; Literal 2; Literal 3; Literal 4; Literal 8; Reference (mkRef 5 0); Literal 7; Reference (mkRef 4 0); Literal 4].
Definition C98_other : list Trace := [Correct; Correct; ActuallyLiteral; Correct; Correct; Correct; Actually (mkRef 5 0); Correct; Actually (mkRef 4 0); ActuallyLiteral; Correct].
Definition C98_hints : list Trace := [Correct; Correct; Correct; Correct; Correct; Correct; Correct; Correct; Actually (mkRef 4 0); Correct].
Definition C98_limit (config : Config) : N := match insert_only_below_length (cfg_wams config) with Some l => l | None => 65535 end.

(** Hints that spell out three codes too many, with one left over; and those found, at level 6. *)
Example C98_case : exists config refs, Config_gzip 6 = Ok config /\ cfg_lookahead config = LGreedy
  /\ with_sixteen [] C98_text (C98_limit config) = Ok refs
  /\ restore C98_other (mkTechnique config refs) = Ok C98_codes
  /\ trace C98_codes (mkTechnique config refs) = Ok C98_hints
  /\ try_gzip 6 [] C98_text C98_codes = Ok C98_hints
  /\ st_write C98_hints = Ok [8; 128; 4; 0; 0; 1; 128]
  /\ st_write C98_other = Ok [2; 128; 0; 0; 3; 128; 5; 0; 0; 1; 128; 4; 0; 0; 0; 0; 1; 128].
Proof.
  do 2 eexists. split; [vm_compute; reflexivity|]. split; [vm_compute; reflexivity|]. split; [vm_compute; reflexivity|]. split; [vm_compute; reflexivity|].
  split; [vm_compute; reflexivity|]. split; [vm_compute; reflexivity|]. split; vm_compute; reflexivity.
Qed.
