(** Property C101: repetition is found (lib/src/all_refs.rs, lib/src/technique.rs). *)
From Verif Require Import Base M_bit M_lib M_serialise M_all_refs M_technique M_trace Spec Spec_encoder Clients Clients_compress Clients_repeat L_P_repeat.
Local Open Scope N_scope.
Local Open Scope model_scope.

(** C101: at levels 4 to 9, whatever came before, a literal is proposed exactly if each of the nearest earlier places with
    the same next three bytes (as many as the level's chain) is more than 4096 back and differs in the fourth byte. *)
Theorem C101_literal_exactly : forall level config preroll data refs history, 4 <= level -> Config_gzip level = Ok config ->
  with_sixteen preroll data 65535 = Ok refs ->
  let t := mkTechnique config refs in let w := preroll ++ data in let pos := (List.length preroll + codes_len history)%nat in
  (pos < List.length w)%nat ->
  ((exists b, sc_codes t (fold_left (feedback t) history (scanner t)) = Ok [Literal b])
   <-> forall q, In q (firstn (limit_count_of_distances (cfg_wams config)) (earlier w pos)) ->
       (q + 4096 < pos)%nat /\ firstn 4 (skipn q w) <> firstn 4 (skipn pos w)).
Proof. exact C101_lemma_literal. Qed.
Print Assumptions C101_literal_exactly.

Example C101_literal_case :
  match Config_gzip 4, with_sixteen [0; 97; 98; 99; 7] [97; 98; 99; 8] 65535 with
  | Ok config, Ok refs =>
      let t := mkTechnique config refs in
      (List.length [0; 97; 98; 99; 7] + codes_len [] < List.length ([0; 97; 98; 99; 7] ++ [97; 98; 99; 8]))%nat
      /\ firstn (limit_count_of_distances (cfg_wams config)) (earlier ([0; 97; 98; 99; 7] ++ [97; 98; 99; 8]) 5) = [1%nat]
      /\ sc_codes t (fold_left (feedback t) [] (scanner t)) = Ok [Reference (mkRef 4 0)]
      /\ sc_codes t (fold_left (feedback t) [Literal 97] (scanner t)) = Ok [Literal 98]
  | _, _ => False
  end.
Proof. vm_compute. repeat split. repeat constructor. Qed.

(** C101: at levels 4 to 9, if the three bytes at every position were seen within the last 4096, everything is guessed as
    matches, but for the last two bytes at most; so there are at most a third as many codes as bytes. *)
Theorem C101_repeats : forall level config preroll data refs n codes, 4 <= level -> Config_gzip level = Ok config ->
  bytes_ok preroll -> bytes_ok data -> with_sixteen preroll data 65535 = Ok refs ->
  let w := preroll ++ data in
  (forall pos, (List.length preroll <= pos)%nat -> (pos + 2 < List.length w)%nat ->
     exists q, (1 <= q < pos)%nat /\ (pos <= q + 4096)%nat /\ firstn 3 (skipn q w) = firstn 3 (skipn pos w)) ->
  restore (repeat Correct n) (mkTechnique config refs) = Ok codes ->
  exists matches tail, codes = map Reference matches ++ map Literal tail /\ (List.length tail <= 2)%nat
    /\ (3 * List.length matches + List.length tail <= List.length data)%nat.
Proof. exact C101_lemma_repeats. Qed.
Print Assumptions C101_repeats.

Example C101_repeats_case :
  let w := [0; 5; 6; 5; 6] ++ [5; 6; 5; 6; 5; 6; 5] in
  match Config_gzip 4, with_sixteen [0; 5; 6; 5; 6] [5; 6; 5; 6; 5; 6; 5] 65535 with
  | Ok config, Ok refs =>
      forallb (fun pos => existsb (fun q => if list_eq_dec N.eq_dec (firstn 3 (skipn q w)) (firstn 3 (skipn pos w)) then true else false) (seq 1 (pos - 1))) (seq 5 5) = true
      /\ restore (repeat Correct 7) (mkTechnique config refs) = Ok [Reference (mkRef 2 4)]
  | _, _ => False
  end.
Proof. vm_compute. split; reflexivity. Qed.

(** C101: so a second copy of up to 4096 bytes, whatever they are, is guessed as matches only, but for its last two bytes at most. *)
Theorem C101_second_copy : forall level config before x refs n codes, 4 <= level -> Config_gzip level = Ok config -> before <> [] ->
  N.of_nat (List.length x) <= 4096 -> bytes_ok before -> bytes_ok x -> with_sixteen (before ++ x) x 65535 = Ok refs ->
  restore (repeat Correct n) (mkTechnique config refs) = Ok codes ->
  exists matches tail, codes = map Reference matches ++ map Literal tail /\ (List.length tail <= 2)%nat
    /\ (3 * List.length matches + List.length tail <= List.length x)%nat.
Proof. exact C101_lemma_copy. Qed.
Print Assumptions C101_second_copy.

Example C101_copy_case :
  match Config_gzip 4, with_sixteen ([0] ++ [5; 6; 7; 8; 5]) [5; 6; 7; 8; 5] 65535, with_sixteen ([0] ++ [5; 6; 7; 5; 6; 7; 9; 6]) [5; 6; 7; 5; 6; 7; 9; 6] 65535 with
  | Ok config, Ok refs, Ok refs' =>
      restore (repeat Correct 5) (mkTechnique config refs) = Ok [Reference (mkRef 5 2)]
      /\ restore (repeat Correct 8) (mkTechnique config refs') = Ok [Reference (mkRef 8 5)]
  | _, _, _ => False
  end.
Proof. vm_compute. repeat split. Qed.

(** At levels 1 to 3 this is false: so few places are looked at that four to six others with the same hash hide the copy. *)
Theorem C101_low_levels_can_miss : forall level, 1 <= level <= 3 ->
  exists config lazy_ before x refs n b more, Config_gzip level = Ok config /\ insert_only_below_length (cfg_wams config) = Some lazy_
    /\ before <> [] /\ N.of_nat (List.length x) <= 4096 /\ bytes_ok before /\ bytes_ok x /\ with_sixteen (before ++ x) x lazy_ = Ok refs
    /\ restore (repeat Correct n) (mkTechnique config refs) = Ok (Literal b :: more) /\ (3 <= List.length x)%nat.
Proof. exact C101_lemma_low. Qed.
Print Assumptions C101_low_levels_can_miss.

(** C101: in every configuration, with a search of at least one place, content that is one byte again and again is guessed as at most
    two literals, at most one match for each 258 bytes and one more, and at most two literals. *)
Theorem C101_one_byte : forall config limit b n refs k codes, (1 <= limit_count_of_distances (cfg_wams config))%nat -> 1 <= limit -> b < 256 ->
  with_sixteen [] (repeat b n) limit = Ok refs -> restore (repeat Correct k) (mkTechnique config refs) = Ok codes ->
  exists first matches last, codes = map Literal first ++ map Reference matches ++ map Literal last
    /\ (List.length first <= 2)%nat /\ (List.length last <= 2)%nat /\ (List.length matches <= n / 258 + 1)%nat.
Proof. exact C101_lemma_constant. Qed.
Print Assumptions C101_one_byte.

Example C101_one_byte_case :
  match Config_gzip 1, with_sixteen [] (repeat 7 270) 4 with
  | Ok config, Ok refs => restore (repeat Correct 270) (mkTechnique config refs)
      = Ok [Literal 7; Literal 7; Reference (mkRef 1 255); Reference (mkRef 258 7)]
  | _, _ => False
  end.
Proof. vm_compute. reflexivity. Qed.
Example C101_lazy_case :
  match with_sixteen [] (repeat 7 9) 4 with
  | Ok refs => restore (repeat Correct 9) (mkTechnique (mkConfig true LGzip DropFarThrees (mkWams 16 1 (Some 4) None)) refs) = Ok [Literal 7; Literal 7; Reference (mkRef 1 4)]
  | _ => False
  end.
Proof. vm_compute. reflexivity. Qed.

(** C101: so the compressor of C100 writes such content in 31 bits for each 258 bytes and 84 more. *)
Theorem C101_one_byte_size : forall config limit b n, (1 <= limit_count_of_distances (cfg_wams config))%nat -> 1 <= limit -> b < 256 ->
  exists codes stream, guess_pieces config limit [] [repeat b n] = Ok [codes] /\ compress_all [FixedHuffman codes] = Ok stream
    /\ (8 * List.length stream <= 31 * (n / 258) + 84)%nat.
Proof. exact C101_lemma_size. Qed.
Print Assumptions C101_one_byte_size.

Example C101_size_case :
  match Config_gzip 1 with
  | Ok config => match guess_pieces config 4 [] [repeat 7 270] with
                 | Ok [codes] => match compress_all [FixedHuffman codes] with Ok stream => List.length stream = 8%nat | _ => False end
                 | _ => False end
  | _ => False
  end.
Proof. vm_compute. reflexivity. Qed.
