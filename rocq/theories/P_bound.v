(** Property C64: how much a compressed file can expand to. *)
From Verif Require Import Base M_bit M_lib M_gzip M_parse M_serialise M_rezippers Spec Clients Clients_bound L_P_bound L_P_bomb.
Local Open Scope N_scope.

(** C64: whatever the bytes are, however they end and however often [next] is called, the blocks returned
    decompress to at most 1032 bytes, and hold at most 8 codes, per byte of the stream. *)
Theorem C64_parse_bounded : forall bytes e n, bytes_ok bytes ->
  total_size (blocks_of (fst (call_next n (parse_deflate (mkSource bytes e))))) <= 1032 * N.of_nat (List.length bytes)
  /\ total_codes (blocks_of (fst (call_next n (parse_deflate (mkSource bytes e))))) <= 8 * N.of_nat (List.length bytes).
Proof. exact C64_lemma_parse. Qed.
Print Assumptions C64_parse_bounded.

(** C64: the cat command never writes more than 1032 bytes per byte of the file, whether or not it succeeds. *)
Theorem C64_cat_bounded : forall file e room o out, bytes_ok file ->
  cat_run (mkSource file e) (sink_with room) = (o, out) ->
  N.of_nat (List.length (written out)) <= 1032 * N.of_nat (List.length file).
Proof. exact C64_lemma_cat. Qed.
Print Assumptions C64_cat_bounded.

(** C64: the factor 1032 cannot be improved: there are files of every length above 23 bytes that reach it, but
    for the 24 bytes of header, tables and padding. *)
Theorem C64_reached : forall k, exists file, bytes_ok file /\ List.length file = (k + 24)%nat
  /\ forall e, cat_run (mkSource file e) new_sink = (Ok tt, mkSink (repeat 0 (N.to_nat (1032 * N.of_nat k + 1))) None).
Proof. exact C64_lemma_reached. Qed.
Print Assumptions C64_reached.

(** 517 zero bytes, as zlib compresses them. *)
Definition long_matches : list N := [99; 96; 24; 5; 35; 30; 0; 0].
Example C64_case : bytes_ok long_matches
  /\ total_size (blocks_of (fst (call_next 2 (parse_deflate (mkSource long_matches UnexpectedEof))))) = 517
  /\ total_codes (blocks_of (fst (call_next 2 (parse_deflate (mkSource long_matches UnexpectedEof))))) = 4.
Proof. split; [repeat constructor|]. vm_compute. split; reflexivity. Qed.
