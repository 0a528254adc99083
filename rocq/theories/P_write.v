(** Properties C74, and C07's size limit: what becomes of any blocks handed to the writer. *)
From Verif Require Import Base M_bit M_lib M_parse M_serialise Spec Clients Clients_wrong Clients_write L_P_write.
Local Open Scope N_scope.

(** C74 is false: writing block values can panic. *)
Theorem C74_no_panic_refuted : exists blocks msg, Forall block_value blocks /\ compress_all blocks = Panic msg.
Proof. exact C74_refuted. Qed.
Print Assumptions C74_no_panic_refuted.

(** C74, exactly: what becomes of any list of block values.  Stored data over 65535 bytes, literals without a code and matches
    without any distance code are refused with an error; lengths or distances without a code, distances of 0 or over
    32768, a missing end of block code and a header cut short panic; a wrong header is refused with an error; everything else is
    written. *)
Theorem C74_writing_partial : forall blocks v, Forall block_value blocks -> first_fault block_verdict blocks v -> meets v (compress_all blocks).
Proof. exact C74_lemma. Qed.
Print Assumptions C74_writing_partial.

(** Every list of block values has such a verdict. *)
Theorem C74_every_value : forall blocks, Forall block_value blocks -> exists v, first_fault block_verdict blocks v.
Proof. exact C74_lemma_total. Qed.
Print Assumptions C74_every_value.

Example C74_case :
  first_fault block_verdict [Uncompressed [1; 2]; FixedHuffman [Literal 97; Reference (mkRef 1 6)]] Written
  /\ first_fault block_verdict [Uncompressed [1; 2]; FixedHuffman [Literal 97; Reference (mkRef 40000 6)]] Crashes
  /\ Forall block_value [Uncompressed [1; 2]; FixedHuffman [Literal 97; Reference (mkRef 40000 6)]]
  /\ first_fault block_verdict [DynamicHuffman (bitvec_of (repeat false 26 ++ [true])) []] Refused
  /\ compress_all [DynamicHuffman (bitvec_of (repeat false 26 ++ [true])) []] = Err (EMsg "non-canonical code")
  /\ compress_all [DynamicHuffman (bitvec_of (repeat false 25)) []] = Panic "TODO: EOF".
Proof.
  assert (L : forall d, length_has_code fixed_ll (mkRef d 6)).
  { intro d. exists 263, 0, 0. split; [|split; [discriminate|vm_compute; discriminate]]. exists 9. split; [cbn; tauto|split; reflexivity]. }
  split; [|split; [|split; [|split; [|split; vm_compute; reflexivity]]]].
  - apply FF_next; [apply KV_stored; discriminate|]. apply FF_next; [|apply FF_none]. apply KV_fixed, BV_end; [|vm_compute; discriminate].
    apply FF_next; [apply CV_literal; vm_compute; discriminate|]. apply FF_next; [|apply FF_none]. apply CV_reference; [apply L|].
    exists 0, 0, 0. split; [exists 1; split; [cbn; tauto|split; reflexivity]|vm_compute; discriminate].
  - apply FF_next; [apply KV_stored; discriminate|]. apply FF_here; [|discriminate]. apply KV_fixed, BV_code; [|discriminate].
    apply FF_next; [apply CV_literal; vm_compute; discriminate|]. apply FF_here; [|discriminate]. apply CV_bad_distance; [apply L|]. intros [_ X]. now apply X.
  - repeat constructor.
  - apply FF_here; [|discriminate]. apply (KV_wrong_header "non-canonical code" (repeat false 26) [true]). apply (WH_code 0 0 0 [0; 0; 0; 0]); try reflexivity; [repeat constructor|].
    apply BC_whole; [cbn; repeat constructor|vm_compute; reflexivity|vm_compute; discriminate].
Qed.

(** C07: data over 65535 bytes is refused, not written with a wrong length. *)
Theorem C07_too_long : forall data, 65535 < N.of_nat (List.length data) -> compress_all [Uncompressed data] = Err (EMsg "data too long to store").
Proof. exact C07_lemma_limit. Qed.
Print Assumptions C07_too_long.

Example C07_too_long_case : 65535 < N.of_nat (List.length (repeat 7 (N.to_nat 65536))).
Proof. rewrite repeat_length, Nnat.N2Nat.id. reflexivity. Qed.
