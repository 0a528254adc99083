(** Property C93: the text the tracing example prints (lib/examples/trace.rs). *)
From Verif Require Import Base M_bit M_lib M_circles M_gzip M_parse M_all_refs M_technique M_trace M_text M_example M_example_text
  Spec Clients Clients_text L_P_extext L_P_lines.
Local Open Scope N_scope.

(** C93: whatever characters beyond ASCII the standard library prints as they are, the text for any file is defined,
    and the texts for two files are the same if and only if their lines say the same. *)
Theorem C93_text : forall plain file1 e1 file2 e2, bytes_ok file1 -> bytes_ok file2 ->
  let lines1 := fst (example_run (mkSource file1 e1)) in
  let lines2 := fst (example_run (mkSource file2 e2)) in
  exists t1 t2, example_text plain lines1 = Ok t1 /\ example_text plain lines2 = Ok t2 /\ (t1 = t2 <-> Forall2 says_same lines1 lines2).
Proof. exact C93_lemma. Qed.
Print Assumptions C93_text.

(** C93: the neighbouring bytes are shown as the characters they are, and U+FFFD where they are none. *)
Theorem C93_characters : forall bytes cs, from_utf8_lossy bytes = cs <-> shown bytes cs.
Proof. exact C93_lemma_shown. Qed.
Print Assumptions C93_characters.

(** C93: in particular UTF-8 is shown as its characters. *)
Theorem C93_valid_utf8 : forall chars bytes, Forall2 utf8 chars bytes -> from_utf8_lossy (List.concat bytes) = chars.
Proof. exact C93_lemma_valid. Qed.
Print Assumptions C93_valid_utf8.

(** C93: characters that are printed as they are, are printed in UTF-8. *)
Theorem C93_printed_utf8 : forall c w, utf8 c w -> encode_utf8 c = w.
Proof. exact C93_lemma_encode. Qed.
Print Assumptions C93_printed_utf8.

(** C93: quoted strings determine their characters, plain ones show them as they are, and no control character is printed. *)
Theorem C93_strings : forall plain,
  (forall a b, Forall (fun c => c < 1114112) a -> Forall (fun c => c < 1114112) b -> string_debug plain a = string_debug plain b -> a = b)
  /\ (forall a, Forall (fun c => 32 <= c <= 126 /\ c <> 34 /\ c <> 92) a -> string_debug plain a = [34] ++ a ++ [34])
  /\ (forall a, Forall (fun b => 32 <= b /\ b <> 127) (string_debug plain a)).
Proof. exact C93_lemma_strings. Qed.
Print Assumptions C93_strings.

(** C93: the line for a guesser ends with the hidden matches, where each starts and how long it is, and the position. *)
Theorem C93_guesser : forall plain technique hidden pos out,
  example_line_text plain (XGuesser technique (mkScanner hidden pos)) = Ok out ->
  exists searching, out = text "   * guesser: Scanner { technique: Technique { config: " ++ searching ++ text " }, obscured: ["
    ++ match hidden with
       | [] => []
       | h :: more => pair_text h ++ flat_map (fun h' => text ", " ++ pair_text h') more
       end
    ++ text "], pos: " ++ decimal (N.of_nat pos) ++ text " }".
Proof. exact C93_lemma_guesser. Qed.
Print Assumptions C93_guesser.

(** Every guesser made from data has such a line (C93_text), with matches shown like this. *)
Example C93_guesser_case : pair_text (7%nat, 9) = text "(7, 9)"
  /\ list_debug obscure_debug [(7%nat, 9); (20%nat, 258)] = text "[" ++ pair_text (7%nat, 9) ++ text ", " ++ text "(20, 258)" ++ text "]".
Proof. split; vm_compute; reflexivity. Qed.

Example C93_case :
  example_text (fun _ => false) [XBlock 0; XFixed; XSize "gzip --fast" 6; XHint 2 [97; 226; 130; 172; 34; 255; 98] [Reference (mkRef 1 0)] ActuallyLiteral;
                                 XHint 1234 [39; 10] [Literal 97] (Actually (mkRef 5 1)); XBlank; XBlock 1; XStored 2]
  = Ok (text "block 0:" ++ [10] ++ text " - fixed huffman:" ++ [10] ++ text "   * trace: gzip --fast -> 6" ++ [10]
        ++ text "      2. " ++ [34] ++ text "a\u{20ac}\" ++ [34] ++ text "\u{fffd}b" ++ [34] ++ text " guess: [R(-1, 3)] trace: literal" ++ [10]
        ++ text "   1234. " ++ [34] ++ text "'\n" ++ [34] ++ text " guess: [L(0x61 'a')] trace: R[5, 4]" ++ [10] ++ [10]
        ++ text "block 1:" ++ [10] ++ text " - uncompressed: 2 bytes" ++ [10])
  /\ config_debug (mkConfig true LGreedy Longest (wams_greedy 8 4 4))
     = text "Config { first_byte_bug: true, lookahead: Greedy, picker: Longest, wams: WamsOptimisations { quit_search_above_length: 8, limit_count_of_distances: 4, insert_only_below_length: Some(4), lookahead: None } }".
Proof. split; vm_compute; reflexivity. Qed.

(** Lines that say the same without being the same, and lines that do not. *)
Example C93_same_case : says_same (XHint 2 [255] [Literal 97] ActuallyLiteral) (XHint 2 [254] [Literal 97] ActuallyLiteral)
  /\ ~ says_same (XHint 2 [255] [Literal 97] ActuallyLiteral) (XHint 2 [65] [Literal 97] ActuallyLiteral).
Proof.
  split.
  - split; [reflexivity|]. split; [|auto]. exists [65533]. split; apply shown_255; discriminate.
  - intros (_ & (s & S1 & S2) & _). apply C93_lemma_shown in S1. apply C93_lemma_shown in S2. rewrite <- S1 in S2. vm_compute in S2. discriminate S2.
Qed.

Example C93_valid_case : Forall2 utf8 [97; 8364; 128512] [[97]; [226; 130; 172]; [240; 159; 152; 128]].
Proof.
  constructor; [now constructor|]. constructor; [apply (utf8_3 2 2 44); lia|]. constructor; [apply (utf8_4 0 31 24 0); lia|constructor].
Qed.
