(** Property C67: the listings printed by the Debug implementations (lib/src/bit.rs, lib/src/code_tree.rs,
    lib/src/back_map.rs). *)
From Verif Require Import Base M_bit M_lib M_code_tree M_all_refs M_debug Spec Clients Clients_debug L_P_debug.
Local Open Scope N_scope.

(** C67: a code tree made from code lengths is listed as the RFC 1951 code of those lengths: every symbol that has
    a code once, with that code, in ascending order of the codes. *)
Theorem C67_tree_listing : forall lens t, N.of_nat (List.length lens) <= 65536 -> tree_new lens = Ok t ->
  ascending (fun a b => bits_before (fst a) (fst b)) (tree_debug t)
  /\ forall code text, In (code, text) (tree_debug t) <-> exists s, rfc_code lens s = Some code /\ shows text s.
Proof. exact C67_lemma_tree. Qed.
Print Assumptions C67_tree_listing.

Example C67_tree_case : exists t, tree_new [2; 1; 0; 3; 3] = Ok t
  /\ tree_debug t = [([false], TByte 1); ([true; false], TByte 0); ([true; true; false], TByte 3); ([true; true; true], TByte 4)].
Proof. eexists. split; vm_compute; reflexivity. Qed.

(** C67: the position table of any preroll and data is listed as, for each hash that occurs after the first position,
    in ascending order, all positions but the first with that hash, in ascending order. *)
Theorem C67_table_listing : forall preroll data,
  let w := preroll ++ data in
  exists m lines, from_window preroll data = Ok m /\ bm_debug m = Ok lines
    /\ ascending (fun a b => fst a < fst b) lines
    /\ forall hash positions, In (hash, positions) lines <->
         positions = filter (fun q => hash3 w q =? hash) (seq 1 (List.length w - 3)) /\ positions <> [].
Proof. exact C67_lemma_table. Qed.
Print Assumptions C67_table_listing.

(** The hash of three equal bytes; and the only line of a table. *)
Example C67_table_case : hash3 [7; 7; 7; 7; 7] 1 = 7399 /\ filter (fun q => hash3 [7; 7; 7; 7; 7] q =? 7399) (seq 1 (5 - 3)) = [1; 2]%nat.
Proof. split; reflexivity. Qed.

(** C67: a bit vector is listed as its length and its bits, and pretty-printed in lines of eight bits, the last
    possibly shorter, none empty. *)
Theorem C67_bits_listing : forall bits v, push_all bits bv_new = Ok v ->
  bv_debug v = Ok (List.length bits, bits)
  /\ exists lines, bv_pretty_print v = Ok lines /\ List.concat lines = bits
     /\ forall before line after, lines = before ++ line :: after ->
          (1 <= List.length line <= 8)%nat /\ (after <> [] -> List.length line = 8%nat).
Proof. exact C67_lemma_bits. Qed.
Print Assumptions C67_bits_listing.

Example C67_bits_case : exists v, push_all [true; false; false; true; true; false; true; false; true; true] bv_new = Ok v
  /\ bv_pretty_print v = Ok [[true; false; false; true; true; false; true; false]; [true; true]].
Proof. eexists. split; vm_compute; reflexivity. Qed.
