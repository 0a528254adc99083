(** Property C84: how far a part of a stream can reach (lib/src/parse.rs, lib/src/huffman.rs, lib/src/code_tree.rs). *)
From Verif Require Import Base M_bit M_lib M_code_tree M_huffman M_parse Spec Clients Clients_reach L_P_reach.
Local Open Scope N_scope.

(** C84: no table, however made, gives a tree deeper than fifteen: the functions that recurse on one cannot exhaust
    the stack. *)
Theorem C84_recursion_is_bounded : forall lens t, tree_new lens = Ok t -> (1 <= tree_height t <= 15)%nat.
Proof. exact C84_lemma_tree. Qed.
Print Assumptions C84_recursion_is_bounded.

(** C84: reading a symbol is reading between one and fifteen bits, and fails only as reading those bits does. *)
Theorem C84_symbol_is_short : forall lens t r o r', tree_new lens = Ok t -> decode_symbol br_read_bit t r = (o, r') ->
  exists k o', (1 <= k <= 15)%nat /\ read_bits k r = (o', r')
    /\ match o with Ok _ => exists w, o' = Ok w | Err e => o' = Err e | Panic m => o' = Panic m | Diverge => o' = Diverge end.
Proof. exact C84_lemma_symbol. Qed.
Print Assumptions C84_symbol_is_short.

(** C84: at any bit of any stream, a dynamic header that is accepted has at most 2311 bits. *)
Theorem C84_header_is_short : forall bytes e off r lt dt r', bytes_ok bytes -> at_bit bytes e off r ->
  read_codes br_read_bit r = (Ok (lt, dt), r') ->
  exists n, (n <= N.to_nat 2311)%nat /\ at_bit bytes e (off + n) r'.
Proof. exact C84_lemma_header. Qed.
Print Assumptions C84_header_is_short.

(** C84: nor does any block returned by [next] keep more. *)
Theorem C84_recorded_header_is_short : forall bytes e n trees codes, bytes_ok bytes ->
  In (Ok (Some (DynamicHuffman trees codes))) (fst (call_next n (parse_deflate (mkSource bytes e)))) ->
  N.of_nat (bv_len trees) <= 2311.
Proof. exact C84_lemma_trees. Qed.
Print Assumptions C84_recorded_header_is_short.

(** C84: a stream that parses takes no more bits than its blocks allow. *)
Theorem C84_stream_is_short : forall bytes e blocks it tail, bytes_ok bytes -> parse_all (mkSource bytes e) = (Ok blocks, it) ->
  br_into_inner (bi_inner it) = Ok (mkSource tail e) ->
  exists used, bytes = used ++ tail /\ 8 * N.of_nat (List.length used) <= most_stream_bits blocks.
Proof. exact C84_lemma_stream. Qed.
Print Assumptions C84_stream_is_short.

(** The fixed code, announced by a dynamic header without any repetition: seven bits for each of the 320 lengths. *)
Definition longest_cls : list N := [1; 2; 3; 4; 7; 7; 7; 0; 0; 7; 0; 5; 0; 0; 0; 0; 0; 0; 0].
Definition cl_word (cls : list N) (l : N) : list bool := match rfc_code (cl_lens cls) l with Some w => w | None => [] end.
Definition longest_stream : list N :=
  pack (true :: lsb 2 2 ++ lsb 5 31 ++ lsb 5 31 ++ lsb 4 15 ++ flat_map (lsb 3) longest_cls
        ++ flat_map (cl_word longest_cls) (fixed_ll ++ fixed_dl) ++ repeat false 7).

(** Codes of fifteen bits for the match length 162 and the distance 32768. *)
Definition deep_cls : list N := [0; 0; 0; 4; 4; 4; 4; 4; 4; 4; 4; 4; 4; 4; 4; 4; 4; 4; 4].
Definition deep_ll : list N := [1; 2; 3; 4; 5; 6; 7; 8; 9; 10; 11; 12; 13; 14] ++ repeat 0 242 ++ [15] ++ repeat 0 24 ++ [15].
Definition deep_dl : list N := [1; 2; 3; 4; 5; 6; 7; 8; 9; 10; 11; 12; 13; 14] ++ repeat 0 14 ++ [15; 15].
Definition deep_stream : list N :=
  pack (true :: lsb 2 2 ++ lsb 5 25 ++ lsb 5 29 ++ lsb 4 15 ++ flat_map (lsb 3) deep_cls
        ++ flat_map (cl_word deep_cls) (deep_ll ++ deep_dl)
        ++ (repeat true 15 ++ lsb 5 31 ++ repeat true 15 ++ lsb 13 8191) ++ repeat true 14 ++ [false]).

(** The bounds are reached: 2311 bits of header, and a reference of 48 bits in a block that takes all it may. *)
Example C84_case :
  (exists trees it, bytes_ok longest_stream
     /\ parse_all (mkSource longest_stream UnexpectedEof) = (Ok [DynamicHuffman trees []], it) /\ N.of_nat (bv_len trees) = 2311)
  /\ (exists trees it, bytes_ok deep_stream
        /\ parse_all (mkSource deep_stream UnexpectedEof) = (Ok [DynamicHuffman trees [Reference (mkRef 32768 159)]], it)
        /\ br_into_inner (bi_inner it) = Ok (mkSource [] UnexpectedEof)
        /\ 8 * N.of_nat (List.length deep_stream) = most_stream_bits [DynamicHuffman trees [Reference (mkRef 32768 159)]])
  /\ (exists t, tree_new deep_ll = Ok t /\ tree_height t = 15%nat).
Proof.
  split; [|split].
  - do 2 eexists. split; [vm_compute; repeat constructor|]. split; [vm_compute; reflexivity|]. reflexivity.
  - do 2 eexists. split; [vm_compute; repeat constructor|]. split; [vm_compute; reflexivity|]. split; reflexivity.
  - eexists. split; [vm_compute; reflexivity|]. reflexivity.
Qed.
