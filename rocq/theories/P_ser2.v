(** Properties C18 and C20, exactly: which block lists read back, which parsed blocks can be written. *)
From Verif Require Import Base M_bit M_lib M_parse M_serialise Spec Clients L_P_ser2.
Local Open Scope N_scope.

(** C18: every list of well-formed blocks is written; it reads back, to the last byte, when all stored lengths are
    byte-symmetric, and never otherwise. *)
Theorem C18_serialise_parse_exactly : forall blocks e, blocks <> [] -> Forall block_ok blocks ->
  exists bytes, compress_all blocks = Ok bytes
    /\ ((forall data, In (Uncompressed data) blocks -> symmetric_length data) ->
        exists it, parse_all (mkSource bytes e) = (Ok blocks, it) /\ br_into_inner (bi_inner it) = Ok (mkSource [] e))
    /\ ((exists it, parse_all (mkSource bytes e) = (Ok blocks, it)) ->
        forall data, In (Uncompressed data) blocks -> symmetric_length data).
Proof. exact C18_lemma_exact. Qed.
Print Assumptions C18_serialise_parse_exactly.

(** Two stored blocks of lengths 257 and 1; the second does not read back. *)
Example C18_exactly_case : Forall block_ok [FixedHuffman [Literal 4]; Uncompressed (repeat 9 257); Uncompressed [7]]
  /\ symmetric_length (repeat 9 257) /\ ~ symmetric_length [7].
Proof.
  split; [|split; [reflexivity|discriminate]].
  constructor; [repeat constructor|]. constructor; [|constructor; [|constructor]].
  - split; [apply Forall_forall; intros x H; apply repeat_spec in H; subst; reflexivity|reflexivity].
  - split; [repeat constructor|reflexivity].
Qed.

(** C20: a parsed block is written, except that a dynamic block with a match of length 258 whose table has no
    symbol 285 makes the writer panic, always. *)
Theorem C20_reserialise_exactly : forall bytes e n b, bytes_ok bytes ->
  In (Ok (Some b)) (fst (call_next n (parse_deflate (mkSource bytes e)))) ->
  match b with
  | Uncompressed _ | FixedHuffman _ => fst (compressed_block b (bw_new new_sink)) = Ok tt
  | DynamicHuffman trees cs =>
      exists ll dl hdr, trees = bitvec_of hdr /\ dyn_header ll dl hdr
        /\ let lacks_258 := exists r, In (Reference r) cs /\ ref_len r = 258 /\ rfc_code ll 285 = None in
           (lacks_258 -> exists msg, fst (compressed_block b (bw_new new_sink)) = Panic msg)
           /\ (~ lacks_258 -> fst (compressed_block b (bw_new new_sink)) = Ok tt)
  end.
Proof. exact C20_lemma_exact. Qed.
Print Assumptions C20_reserialise_exactly.

Example C20_exactly_case : bytes_ok [229; 192; 129; 0; 0; 0; 0; 0; 144; 255; 107; 33; 252; 0]
  /\ exists trees, In (Ok (Some (DynamicHuffman trees [Reference (mkRef 1 255)])))
       (fst (call_next 1 (parse_deflate (mkSource [229; 192; 129; 0; 0; 0; 0; 0; 144; 255; 107; 33; 252; 0] UnexpectedEof)))).
Proof. split; [repeat constructor|]. eexists. vm_compute. left. reflexivity. Qed.
