(** Property C103: tracing block by block (lib/src/technique.rs, lib/src/trace.rs). *)
From Verif Require Import Base M_bit M_lib M_serialise M_all_refs M_technique M_trace Spec Spec_encoder Clients Clients_split L_P_split.
Local Open Scope N_scope.
Local Open Scope model_scope.

(** C103: cut the content where a code ends, and let the first part come before the second.  If no match of the first part is so long
    that it hides its inside, the codes of the second part get the hints they have in the whole; tracing one succeeds exactly if tracing the other does. *)
Theorem C103_rest : forall config preroll data1 data2 limit refs refs' codes1 codes2,
  bytes_ok preroll -> bytes_ok data1 -> bytes_ok data2 -> cfg_lookahead config = LGreedy ->
  with_sixteen preroll (data1 ++ data2) limit = Ok refs -> with_sixteen (preroll ++ data1) data2 limit = Ok refs' ->
  codes_len codes1 = List.length data1 -> long_runs (insert_only_below_length (cfg_wams config)) (List.length preroll) codes1 = [] ->
  forall hints2, trace codes2 (mkTechnique config refs') = Ok hints2
    <-> exists hints1, List.length hints1 = List.length codes1 /\ trace (codes1 ++ codes2) (mkTechnique config refs) = Ok (hints1 ++ hints2).
Proof. exact C103_lemma_rest. Qed.
Print Assumptions C103_rest.

Example C103_rest_case :
  match Config_gzip 4, with_sixteen [] ([0; 1; 2; 3; 1; 2; 3; 4] ++ [1; 2; 3; 4; 9]) 65535, with_sixteen ([] ++ [0; 1; 2; 3; 1; 2; 3; 4]) [1; 2; 3; 4; 9] 65535 with
  | Ok config, Ok refs, Ok refs' =>
      let codes1 := map Literal [0; 1; 2; 3] ++ [Reference (mkRef 3 0); Literal 4] in
      cfg_lookahead config = LGreedy /\ codes_len codes1 = 8%nat /\ long_runs (insert_only_below_length (cfg_wams config)) 0 codes1 = []
      /\ trace (codes1 ++ [Literal 1; Literal 2; Literal 3; Literal 4; Literal 9]) (mkTechnique config refs)
         = Ok (repeat Correct 6 ++ [ActuallyLiteral; ActuallyLiteral; Correct; Correct; Correct])
      /\ trace [Literal 1; Literal 2; Literal 3; Literal 4; Literal 9] (mkTechnique config refs') = Ok [ActuallyLiteral; ActuallyLiteral; Correct; Correct; Correct]
  | _, _, _ => False
  end.
Proof. vm_compute. repeat split. Qed.

(** C103: so, if nothing is ever hidden, tracing all blocks of a file one after the other gives the hints of the whole file, but for codes
    that end in the last 258 bytes of a block; of the last block all are the same. *)
Theorem C103_blocks : forall config limit blocks preroll,
  bytes_ok preroll -> Forall (fun block => bytes_ok (fst block) /\ codes_len (snd block) = List.length (fst block)) blocks ->
  cfg_lookahead config = LGreedy -> insert_only_below_length (cfg_wams config) = None ->
  exists whole parts,
    hints_of config limit preroll (flat_map fst blocks) (flat_map snd blocks) = Ok whole /\ block_hints config limit preroll blocks = Ok parts
    /\ map (@List.length Trace) parts = map (fun block => List.length (snd block)) blocks /\ List.length whole = List.length (flat_map snd blocks)
    /\ forall before data codes codes' after,
         blocks = before ++ (data, codes ++ codes') :: after -> (codes_len codes + 258 <= List.length data)%nat \/ after = [] ->
         firstn (List.length codes) (nth (List.length before) parts []) = firstn (List.length codes) (skipn (List.length (flat_map snd before)) whole).
Proof. exact C103_lemma_blocks. Qed.
Print Assumptions C103_blocks.

Example C103_blocks_case :
  match Config_gzip 9 with
  | Ok config =>
      let blocks := [([0; 1; 2; 3; 1; 2; 3; 1; 2], map Literal [0; 1; 2; 3] ++ [Reference (mkRef 3 2)]); ([3; 4], [Literal 3; Literal 4])] in
      cfg_lookahead config = LGreedy /\ insert_only_below_length (cfg_wams config) = None
      /\ Forall (fun block => bytes_ok (fst block) /\ codes_len (snd block) = List.length (fst block)) blocks
      /\ block_hints config 65535 [] blocks = Ok [repeat Correct 5; repeat Correct 2]
      /\ hints_of config 65535 [] (flat_map fst blocks) (flat_map snd blocks) = Ok (repeat Correct 4 ++ [Actually (mkRef 3 2)] ++ repeat Correct 2)
  | _ => False
  end.
Proof.
  vm_compute. repeat split; repeat (apply Forall_cons; [split; [repeat (apply Forall_cons; [reflexivity|]); apply Forall_nil|reflexivity]|]); apply Forall_nil.
Qed.

(** C103: at levels 1 to 3, where long matches hide their inside and each block starts with nothing hidden, a block can be guessed
    although it is not guessed in the whole. *)
Theorem C103_low_levels_differ : forall level, 1 <= level <= 3 -> exists config limit blocks whole parts,
  Config_gzip level = Ok config /\ insert_only_below_length (cfg_wams config) = Some limit /\ Forall (fun block => bytes_ok (fst block) /\ codes_len (snd block) = List.length (fst block)) blocks
  /\ encodes [] (flat_map fst blocks) (flat_map snd blocks)
  /\ hints_of config limit [] (flat_map fst blocks) (flat_map snd blocks) = Ok whole /\ block_hints config limit [] blocks = Ok parts
  /\ List.concat parts <> whole /\ parts = map (fun block => repeat Correct (List.length (snd block))) blocks.
Proof. exact C103_lemma_low. Qed.
Print Assumptions C103_low_levels_differ.

Example C103_low_case :
  match Config_gzip 1 with
  | Ok config =>
      let blocks := [([0; 1; 2; 3; 4; 5; 6; 7; 8; 1; 2; 3; 4; 5; 6; 7; 8], map Literal [0; 1; 2; 3; 4; 5; 6; 7; 8] ++ [Reference (mkRef 8 5)]);
                     ([3; 4; 5; 9], [Reference (mkRef 14 0); Literal 9])] in
      block_hints config 4 [] blocks = Ok [repeat Correct 10; [Actually (mkRef 14 0); Correct]]
      /\ hints_of config 4 [] (flat_map fst blocks) (flat_map snd blocks) = Ok (repeat Correct 12)
  | _ => False
  end.
Proof. vm_compute. repeat split. Qed.
