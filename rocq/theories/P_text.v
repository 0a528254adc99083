(** Property C69: the printed text determines what was printed (the [Debug] implementations and the dump command). *)
From Verif Require Import Base M_bit M_lib M_code_tree M_huffman M_gzip M_parse M_all_refs M_debug M_dump M_text Spec Clients Clients_debug L_P_text.
Local Open Scope N_scope.

(** C69, for code lists ([{:?}] of a slice of codes). *)
Theorem C69_codes_text : forall a b, Forall literal_byte a -> Forall literal_byte b -> list_debug code_debug a = list_debug code_debug b -> a = b.
Proof. exact C69_lemma_codes. Qed.
Print Assumptions C69_codes_text.

Example C69_codes_case : Forall literal_byte [Literal 39; Literal 200; Reference (mkRef 258 2)]
  /\ list_debug code_debug [Literal 39; Literal 200; Reference (mkRef 258 2)]
     = text "[L(0x27 '\''), L(0xc8 '" ++ [195; 136] ++ text "'), R(-258, 5)]".
Proof. split; [repeat constructor; reflexivity|]. vm_compute. reflexivity. Qed.

(** C69, for hint lists. *)
Theorem C69_hints_text : forall a b, list_debug trace_debug a = list_debug trace_debug b -> a = b.
Proof. exact C69_lemma_hints. Qed.
Print Assumptions C69_hints_text.

Example C69_hints_case : list_debug trace_debug [Correct; ActuallyLiteral; Actually (mkRef 1 0)] = text "[" ++ [226; 156; 147] ++ text ", L, R[1, 3]]".
Proof. vm_compute. reflexivity. Qed.

(** C69, for hash keys. *)
Theorem C69_keys_text : forall a b, k0 a < 256 -> k1 a < 256 -> k2 a < 256 -> k0 b < 256 -> k1 b < 256 -> k2 b < 256 -> key_debug a = key_debug b -> a = b.
Proof. exact C69_lemma_keys. Qed.
Print Assumptions C69_keys_text.

Example C69_keys_case : key_debug (mkKey 97 34 126) = [34; 97; 34; 126; 34] /\ key_debug (mkKey 97 32 255) <> key_debug (mkKey 97 32 254).
Proof. split; [vm_compute; reflexivity|]. vm_compute. discriminate. Qed.

(** C69: keys of three visible characters, and only those, are printed as these between double quotes. *)
Theorem C69_plain_keys : forall k, key_debug k = [34; k0 k; k1 k; k2 k; 34] <-> (33 <= k0 k <= 126 /\ 33 <= k1 k <= 126 /\ 33 <= k2 k <= 126).
Proof. exact C69_lemma_plain_keys. Qed.
Print Assumptions C69_plain_keys.

(** C69, for bit vectors: [bv_debug] gives the length and bits. *)
Theorem C69_bits_text : forall v w dv dw t, bv_debug v = Ok dv -> bv_debug w = Ok dw -> bitvec_debug v = Ok t -> bitvec_debug w = Ok t -> dv = dw.
Proof. exact C69_lemma_bits. Qed.
Print Assumptions C69_bits_text.

Example C69_bits_case : bitvec_debug (bitvec_of [true; false; true]) = Ok (text "BitVec: 3: 101").
Proof. vm_compute. reflexivity. Qed.

(** C69, for code trees: the text determines the RFC 1951 code of the lengths. *)
Theorem C69_trees_text : forall lens1 lens2 t1 t2,
  N.of_nat (List.length lens1) <= 65536 -> N.of_nat (List.length lens2) <= 65536 ->
  tree_new lens1 = Ok t1 -> tree_new lens2 = Ok t2 -> tree_text t1 = tree_text t2 ->
  forall s, rfc_code lens1 s = rfc_code lens2 s.
Proof. exact C69_lemma_trees. Qed.
Print Assumptions C69_trees_text.

Example C69_trees_case : exists t, tree_new [2; 1; 2] = Ok t
  /\ tree_text t = text "0 => 0x01 '\u{1}'" ++ [10] ++ text "10 => 0x00 '\0'" ++ [10] ++ text "11 => 0x02 '\u{2}'" ++ [10].
Proof. eexists. split; vm_compute; reflexivity. Qed.

(** C69, for position tables: the text is always defined and determines, for each hash, the positions (but the first)
    with that hash. *)
Theorem C69_tables_text : forall preroll1 data1 preroll2 data2,
  let w1 := preroll1 ++ data1 in
  let w2 := preroll2 ++ data2 in
  exists m1 m2 t1 t2, from_window preroll1 data1 = Ok m1 /\ from_window preroll2 data2 = Ok m2
    /\ table_text m1 = Ok t1 /\ table_text m2 = Ok t2
    /\ (t1 = t2 -> forall hash, filter (fun q => hash3 w1 q =? hash) (seq 1 (List.length w1 - 3)) = filter (fun q => hash3 w2 q =? hash) (seq 1 (List.length w2 - 3))).
Proof. exact C69_lemma_tables. Qed.
Print Assumptions C69_tables_text.

Example C69_tables_case : filter (fun q => hash3 [7; 7; 7; 7; 7] q =? 7399) (seq 1 (5 - 3)) <> filter (fun q => hash3 [7; 7; 7; 7] q =? 7399) (seq 1 (4 - 3))
  /\ hex4 7399 ++ text ": " ++ list_debug (fun n => decimal (N.of_nat n)) [1; 2]%nat = text "1ce7: [1, 2]".
Proof. split; [vm_compute; discriminate|vm_compute; reflexivity]. Qed.

(** C69, for the match finder ([AllRefs]): it prints its position table. *)
Theorem C69_refs_text : forall preroll1 data1 limit1 preroll2 data2 limit2,
  let w1 := preroll1 ++ data1 in
  let w2 := preroll2 ++ data2 in
  exists r1 r2 t1 t2, with_sixteen preroll1 data1 limit1 = Ok r1 /\ with_sixteen preroll2 data2 limit2 = Ok r2
    /\ refs_text r1 = Ok t1 /\ refs_text r2 = Ok t2
    /\ (t1 = t2 <-> forall hash, filter (fun q => hash3 w1 q =? hash) (seq 1 (List.length w1 - 3)) = filter (fun q => hash3 w2 q =? hash) (seq 1 (List.length w2 - 3))).
Proof. exact C69_lemma_refs. Qed.
Print Assumptions C69_refs_text.

Example C69_refs_case : exists r, with_sixteen [9; 9; 9] [9; 9] 6 = Ok r /\ filter (fun q => hash3 [9; 9; 9; 9; 9] q =? hash3 [9; 9; 9; 9; 9] 0) (seq 1 (5 - 3)) = [1; 2]%nat.
Proof. eexists. split; vm_compute; reflexivity. Qed.

(** C69: the numbers in all these texts are in the usual notation. *)
Theorem C69_numbers : forall n,
  numeral 10 0 (decimal n) = Some n
  /\ (forall t, decimal n = 48 :: t -> n = 0 /\ t = [])
  /\ decimal n <> []
  /\ (n < 256 -> List.length (hex2 n) = 2%nat /\ numeral 16 0 (hex2 n) = Some n)
  /\ (n < 65536 -> List.length (hex4 n) = 4%nat /\ numeral 16 0 (hex4 n) = Some n).
Proof. exact C69_lemma_numbers. Qed.
Print Assumptions C69_numbers.

Example C69_numbers_case : decimal 32768 = text "32768" /\ hex2 10 = text "0a" /\ hex4 7399 = text "1ce7".
Proof. repeat split; vm_compute; reflexivity. Qed.

(** C69: plain characters are shown as themselves. *)
Theorem C69_plain_characters : forall c, 32 <= c < 127 -> c <> 39 -> c <> 92 -> char_debug c = [39; c; 39].
Proof. exact C69_lemma_plain. Qed.
Print Assumptions C69_plain_characters.

Example C69_plain_case : 32 <= 97 < 127 /\ char_debug 97 = text "'a'".
Proof. repeat split; vm_compute; reflexivity || discriminate. Qed.

(** C69, for the dump command: the text of a run is always defined and determines its lines. *)
Theorem C69_dump_text : forall file1 e1 file2 e2, bytes_ok file1 -> bytes_ok file2 ->
  exists t1 t2, dump_text (fst (dump_run (mkSource file1 e1))) = Ok t1 /\ dump_text (fst (dump_run (mkSource file2 e2))) = Ok t2
    /\ (t1 = t2 -> fst (dump_run (mkSource file1 e1)) = fst (dump_run (mkSource file2 e2))).
Proof. exact C69_lemma_dump. Qed.
Print Assumptions C69_dump_text.

Example C69_dump_case : exists t, dump_text (fst (dump_run (mkSource ([31; 139; 8; 0; 0; 0; 0; 0; 4; 3] ++ [99; 100; 98; 6; 0] ++ [1; 2]) UnexpectedEof))) = Ok t
  /\ bytes_ok ([31; 139; 8; 0; 0; 0; 0; 0; 4; 3] ++ [99; 100; 98; 6; 0] ++ [1; 2]) /\ Nat.ltb 40 (List.length t) = true.
Proof. eexists. split; [vm_compute; reflexivity|]. split; [repeat constructor|vm_compute; reflexivity]. Qed.
