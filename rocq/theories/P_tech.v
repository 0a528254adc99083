(** Properties C36-C38, C53: picking candidates and guessing codes (lib/src/iters.rs, picker.rs, wams.rs,
    technique.rs, lookahead.rs). *)
From Verif Require Import Base M_lib M_all_refs M_technique Spec L_P_tech.
Local Open Scope N_scope.

(** C36: None exactly for the empty sequence, otherwise exactly the first best. *)
Theorem C36_capped_maximum : forall (A : Type) (score : A -> N) (cap : N) (l : list A),
  (capped_max_by score cap l = None <-> l = [])
  /\ forall x, capped_max_by score cap l = Some x <-> first_best score cap l x.
Proof. exact C36_lemma. Qed.
Print Assumptions C36_capped_maximum.

Example C36_case : first_best (fun x => x) 9 [3; 5; 4; 5] 5 /\ first_best (fun x => x) 5 [3; 5; 7] 5
  /\ ~ first_best (fun x => x) 9 [3; 5; 4; 5] 4.
Proof.
  split; [|split].
  - exists [3], [4; 5]. split; [reflexivity|]. right. repeat split; intros y HY; repeat (destruct HY as [<-|HY]; [lia|]); destruct HY.
  - exists [3], [7]. split; [reflexivity|]. left. split; [lia|]. intros y [<-|[]]. lia.
  - intros H. apply C36_capped_maximum in H. vm_compute in H. discriminate.
Qed.

(** C37: the picker's result is a candidate, the first best by length; only far three-byte winners are dropped. *)
Theorem C37_picker : forall p l cap,
  match picker p l cap with
  | Some r => In r l /\ first_best ref_len cap l r /\ (p = DropFarThrees -> 3 < ref_len r \/ r_dist r <= 4096)
  | None => l = [] \/ (p = DropFarThrees /\ exists r, first_best ref_len cap l r /\ ref_len r <= 3 /\ 4096 < r_dist r)
  end.
Proof. exact C37_lemma. Qed.
Print Assumptions C37_picker.

Example C37_case : picker DropFarThrees [mkRef 4097 0] 258 = None /\ picker Longest [mkRef 4097 0] 258 = Some (mkRef 4097 0)
  /\ picker DropFarThrees [mkRef 4096 0; mkRef 5000 1] 258 = Some (mkRef 5000 1).
Proof. repeat split; vm_compute; reflexivity. Qed.

(** C38: whatever the configuration, the guess at a position with data left is a non-empty list of codes that
    decodes to some of the data there. *)
Theorem C38_guesses_decode : forall preroll data limit config refs hidden_runs pos,
  bytes_ok preroll -> bytes_ok data -> with_sixteen preroll data limit = Ok refs ->
  (pos < List.length (preroll ++ data))%nat ->
  exists codes n, sc_codes (mkTechnique config refs) (mkScanner hidden_runs pos) = Ok codes
    /\ codes <> [] /\ (0 < n)%nat /\ (pos + n <= List.length (preroll ++ data))%nat
    /\ Forall code_ok codes
    /\ encodes (firstn pos (preroll ++ data)) (firstn n (skipn pos (preroll ++ data))) codes.
Proof. exact C38_lemma. Qed.
Print Assumptions C38_guesses_decode.

(** Lazy matching and three-zip both prefer a later, longer match here. *)
Example C38_case : exists refs, with_sixteen [] [0; 97; 98; 99; 9; 98; 99; 100; 101; 102; 2; 97; 98; 99; 100; 101; 102] 16 = Ok refs
  /\ sc_codes (mkTechnique (mkConfig false LGzip Longest (mkWams 258 16 None None)) refs) (mkScanner [] 11)
       = Ok [Literal 97; Reference (mkRef 7 2)]
  /\ sc_codes (mkTechnique (mkConfig false LThreeZip Longest (mkWams 258 16 None None)) refs) (mkScanner [] 11)
       = Ok [Literal 97; Reference (mkRef 7 2)]
  /\ sc_codes (mkTechnique (mkConfig false LGreedy Longest (mkWams 258 16 None None)) refs) (mkScanner [] 11)
       = Ok [Reference (mkRef 10 0)].
Proof. eexists. split; [vm_compute; reflexivity|]. split; [vm_compute; reflexivity|]. split; vm_compute; reflexivity. Qed.

(** C53: levels 1 to 9 give gzip's own parameters, every other level panics.  Missing from the full property:
    the meaning of the lazy length, see below. *)
Theorem C53_configurations_partial : forall level, level < 256 ->
  (level < 1 \/ 9 < level -> Config_gzip level = Panic "gzip levels are between 1 and 9, inclusive")
  /\ forall good lazy_ nice chain, 1 <= level -> nth_error gzip_levels (N.to_nat (level - 1)) = Some (good, lazy_, nice, chain) ->
     exists c, Config_gzip level = Ok c
       /\ cfg_picker c = (if level <? 4 then Longest else DropFarThrees)
       /\ quit_search_above_length (cfg_wams c) = nice
       /\ N.of_nat (limit_count_of_distances (cfg_wams c)) = chain
       /\ insert_only_below_length (cfg_wams c) = (if level <? 4 then Some lazy_ else None)
       /\ match wams_lookahead (cfg_wams c) with
          | None => level < 4
          | Some la => 4 <= level /\ apathetic_above_length la = good /\ abort_above_length la = lazy_
          end.
Proof. exact C53_lemma. Qed.
Print Assumptions C53_configurations_partial.

Example C53_case : nth_error gzip_levels (N.to_nat (6 - 1)) = Some (8, 16, 128, 128).
Proof. reflexivity. Qed.

(** C53 is false of the code as documented: a known run as long as the abort length does not abandon the
    search. *)
Theorem C53_abort_refuted : exists data refs c la pos known literal r,
  with_sixteen [] data 16 = Ok refs /\ Config_gzip 4 = Ok c /\ wams_lookahead (cfg_wams c) = Some la
  /\ abort_above_length la <= known
  /\ best_candidate_better_than (mkTechnique c refs) [] pos (Some known) = Ok (literal, Some r).
Proof. exact C53_lemma_refuted. Qed.
Print Assumptions C53_abort_refuted.

(** C53: the test is the wrong way round: it is a run shorter than the abort length that abandons the search. *)
Theorem C53_abort_inverted : forall c refs la obscured pos known literal found,
  wams_lookahead (cfg_wams c) = Some la -> known < abort_above_length la ->
  best_candidate_better_than (mkTechnique c refs) obscured pos (Some known) = Ok (literal, found) -> found = None.
Proof. exact C53_lemma_inverted. Qed.
Print Assumptions C53_abort_inverted.
