(** Property C85: builds with and without overflow checks (all of lib/src that reads and writes, rezippers/src). *)
From Verif Require Import Base M_bit M_lib M_code_tree M_circles M_parse M_serialise M_dump M_rezippers M_arith Spec Clients Clients_write Clients_arith L_P_arith.
Local Open Scope N_scope.

(** C85: in either build every call of [next] on any input returns what the model proper says, and none of them panics. *)
Theorem C85_parse : forall bd bytes e n, bytes_ok bytes -> N.of_nat (List.length bytes) < 2 ^ 61 ->
  mc_call_next bd n (parse_deflate (mkSource bytes e)) = call_next n (parse_deflate (mkSource bytes e))
  /\ Forall returns (fst (mc_call_next bd n (parse_deflate (mkSource bytes e)))).
Proof. exact C85_lemma_parse. Qed.
Print Assumptions C85_parse.

(** C85: so do the commands, whatever the file. *)
Theorem C85_commands : forall bd bytes e out inflate, bytes_ok bytes -> N.of_nat (List.length bytes) < 2 ^ 61 ->
  mc_cat_run bd (mkSource bytes e) out = cat_run (mkSource bytes e) out
  /\ mc_dump_run bd (mkSource bytes e) = dump_run (mkSource bytes e)
  /\ mc_zero_run bd inflate (mkSource bytes e) out = zero_run inflate (mkSource bytes e) out.
Proof. exact C85_lemma_commands. Qed.
Print Assumptions C85_commands.

(** C85: and decompression of any blocks into a window of any size. *)
Theorem C85_decompress : forall bd cap w blocks out, cap < 65536 -> cb_with_capacity cap = Ok w -> Forall block_value blocks ->
  mc_decompress_blocks bd blocks (w, out) = decompress_blocks blocks (w, out).
Proof. exact C85_lemma_decompress. Qed.
Print Assumptions C85_decompress.

(** C85: in either build, blocks with references as DEFLATE has them are written as the model proper says. *)
Theorem C85_write : forall bd fuel blocks, (16 <= fuel)%nat -> Forall block_fits blocks ->
  Forall (fun b => Forall in_range (block_codes b)) blocks -> mc_compress_all bd fuel blocks = compress_all blocks.
Proof. exact C85_lemma_write. Qed.
Print Assumptions C85_write.

(** C85: with overflow checks, so are all others. *)
Theorem C85_write_checked : forall fuel blocks, (16 <= fuel)%nat -> Forall block_fits blocks ->
  mc_compress_all Checked fuel blocks = compress_all blocks.
Proof. exact C85_lemma_checked. Qed.
Print Assumptions C85_write_checked.

(** C85: without them, a distance over 32768 is the one difference: no number of steps is enough, where the checks
    panic.  A distance of 0 panics in both. *)
Theorem C85_out_of_range : forall fuel before d k after, (16 <= fuel)%nat -> Forall code_ok before -> k < 256 ->
  d = 0 \/ 32768 < d < 65536 ->
  (exists m, mc_compress_all Checked fuel [FixedHuffman (before ++ Reference (mkRef d k) :: after)] = Panic m)
  /\ (d = 0 -> exists m, mc_compress_all Release fuel [FixedHuffman (before ++ Reference (mkRef d k) :: after)] = Panic m)
  /\ (d <> 0 -> mc_compress_all Release fuel [FixedHuffman (before ++ Reference (mkRef d k) :: after)] = Diverge).
Proof. exact C85_lemma_out_of_range. Qed.
Print Assumptions C85_out_of_range.

(** C85: in either build the cost of a code is estimated as the model proper says. *)
Theorem C85_cost : forall bd fuel ll dl lt dt ls c, (16 <= fuel)%nat -> (List.length ll <= 288)%nat -> (List.length dl <= 288)%nat ->
  tree_new ll = Ok lt -> tree_new dl = Ok dt -> Lengths_new lt dt = Ok ls -> code_ok c ->
  exists o, mc_length bd fuel ls c = Ok o /\ Lengths_length ls c = Ok o.
Proof. exact C85_lemma_cost. Qed.
Print Assumptions C85_cost.

Definition some_blocks : list Block := [Uncompressed [1; 2]; FixedHuffman [Literal 97; Reference (mkRef 1 255)]].

Example C85_case : Forall block_fits some_blocks /\ Forall (fun b => Forall in_range (block_codes b)) some_blocks
  /\ (exists bytes, mc_compress_all Release 16 some_blocks = Ok bytes /\ bytes_ok bytes)
  /\ Forall block_fits [FixedHuffman [Literal 97; Reference (mkRef 40000 0)]]
  /\ mc_compress_all Checked 16 [FixedHuffman [Literal 97; Reference (mkRef 40000 0)]] = Panic "attempt to multiply with overflow".
Proof.
  split; [repeat constructor|]. split; [repeat constructor; discriminate|]. split.
  - eexists. split; [vm_compute; reflexivity|]. repeat constructor.
  - split; [repeat constructor|]. vm_compute. reflexivity.
Qed.

Example C85_cost_case : exists lt dt ls, tree_new fixed_ll = Ok lt /\ tree_new fixed_dl = Ok dt /\ Lengths_new lt dt = Ok ls
  /\ mc_length Release 16 ls (Reference (mkRef 5 7)) = Ok (Some 13) /\ code_ok (Reference (mkRef 5 7)).
Proof.
  eexists. eexists. eexists. split; [vm_compute; reflexivity|]. split; [vm_compute; reflexivity|]. split; [vm_compute; reflexivity|].
  split; [vm_compute; reflexivity|]. repeat split; discriminate.
Qed.
