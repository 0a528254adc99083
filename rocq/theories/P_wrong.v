(** Property C87: what reading a stream that is no stream says. *)
From Verif Require Import Base M_bit M_lib M_code_tree M_parse Spec Clients Clients_wrong L_P_wrong.
Local Open Scope N_scope.

(** C87: reading the blocks of any bytes ends in blocks, a complaint, or the error behind the bytes. *)
Theorem C87_outcomes : forall bytes e, bytes_ok bytes ->
  (exists blocks, fst (parse_all (mkSource bytes e)) = Ok blocks) \/ (exists msg, fst (parse_all (mkSource bytes e)) = Err (EMsg msg))
  \/ fst (parse_all (mkSource bytes e)) = Err (EIo e).
Proof. exact C87_lemma_outcomes. Qed.
Print Assumptions C87_outcomes.

(** C87: it ends in a complaint exactly if the bytes start with something the complaint is about. *)
Theorem C87_complaint : forall bytes e msg, bytes_ok bytes ->
  fst (parse_all (mkSource bytes e)) = Err (EMsg msg) <-> exists blocks w t, bits_of_bytes bytes = w ++ t /\ wrong_stream 0 blocks msg w.
Proof. exact C87_lemma. Qed.
Print Assumptions C87_complaint.

(** C87: and exactly if they start with neither that nor a stream, it ends in the error behind the bytes. *)
Theorem C87_end_of_input : forall bytes e, bytes_ok bytes ->
  fst (parse_all (mkSource bytes e)) = Err (EIo e) <->
  (forall blocks used tail, bytes = used ++ tail -> ~ stream_bits 0 blocks (bits_of_bytes used))
  /\ (forall blocks msg w t, bits_of_bytes bytes = w ++ t -> ~ wrong_stream 0 blocks msg w).
Proof. exact C87_lemma_io. Qed.
Print Assumptions C87_end_of_input.

(** C87: the blocks before the place are returned first. *)
Theorem C87_blocks_before : forall bytes e blocks msg w t, bytes_ok bytes -> bits_of_bytes bytes = w ++ t -> wrong_stream 0 blocks msg w ->
  fst (call_next (List.length blocks + 1) (parse_deflate (mkSource bytes e))) = map (fun b => Ok (Some b)) blocks ++ [Err (EMsg msg)].
Proof. exact C87_lemma_delivered. Qed.
Print Assumptions C87_blocks_before.

(** C87: no stream starts with anything complained about, and there is one complaint. *)
Theorem C87_no_stream : forall blocks msg w t blocks', wrong_stream 0 blocks msg w -> ~ stream_bits 0 blocks' (w ++ t).
Proof. exact C87_lemma_hopeless. Qed.
Print Assumptions C87_no_stream.
Theorem C87_one_complaint : forall b1 m1 w1 t1 b2 m2 w2 t2, wrong_stream 0 b1 m1 w1 -> wrong_stream 0 b2 m2 w2 -> w1 ++ t1 = w2 ++ t2 -> (List.length (w1 ++ t1) mod 8 = 0)%nat ->
  m1 = m2 /\ b1 = b2.
Proof. exact C87_lemma_unique. Qed.
Print Assumptions C87_one_complaint.

(** A stored block with nothing in it, then: the reserved type; a distance of a fixed block that stands for nothing; a
    stored block with lengths that don't match; padding; and a cut. *)
Example C87_case :
  let first := [0; 0; 0; 255; 255] in let e := UnexpectedEof in
  fst (parse_all (mkSource (first ++ [7]) e)) = Err (EMsg "reserved block type")
  /\ wrong_stream 0 [Uncompressed []] "reserved block type" (bits_of_bytes first ++ [true; true; true])
  /\ fst (call_next 2 (parse_deflate (mkSource (first ++ [7]) e))) = [Ok (Some (Uncompressed [])); Err (EMsg "reserved block type")]
  /\ fst (parse_all (mkSource (first ++ [3; 62]) e)) = Err (EMsg "reserved distance symbol")
  /\ wrong_stream 0 [Uncompressed []] "reserved distance symbol"
       (bits_of_bytes first ++ [true; true; false] ++ [false; false; false; false; false; false; true] ++ [true; true; true; true; true])
  /\ fst (parse_all (mkSource (first ++ [1; 5; 0; 5; 0]) e)) = Err (EMsg "uncompressed block length validation failed")
  /\ fst (parse_all (mkSource (first ++ [249; 0; 0; 255; 255]) e)) = Err (EMsg "padding bits should always be empty")
  /\ fst (parse_all (mkSource (first ++ [4; 0; 0; 0]) e)) = Err (EMsg "non-canonical code")
  /\ fst (parse_all (mkSource (first ++ [75; 4]) e)) = Err (EIo e).
Proof.
  assert (B : block_bits 1 (Uncompressed []) ([false; false] ++ repeat false 5 ++ bits_of_bytes ([0; 0] ++ [255; 255] ++ []))).
  { apply (BK_stored 1 [] 5); [reflexivity|constructor|split; [repeat constructor|reflexivity]]. }
  cbv zeta.
  split; [vm_compute; reflexivity|]. split.
  { apply (WS_next 0 (Uncompressed []) [] _ _ [true; true; true] B). apply (WS_block _ true _ [true; true]). constructor. }
  split; [vm_compute; reflexivity|]. split; [vm_compute; reflexivity|]. split.
  { apply (WS_next 0 (Uncompressed []) [] _ _ ([true; true; false] ++ [false; false; false; false; false; false; true] ++ [true; true; true; true; true]) B).
    apply (WS_block _ true _ ([true; false] ++ [false; false; false; false; false; false; true] ++ [true; true; true; true; true])). apply WK_fixed. apply WB_here.
    apply (WC_distance _ _ 3 257 0 0 [false; false; false; false; false; false; true]).
    - exists 3. split; [left; reflexivity|]. split; reflexivity.
    - vm_compute. reflexivity.
    - left. exists 31. split; [discriminate|]. vm_compute. reflexivity. }
  repeat split; vm_compute; reflexivity.
Qed.

(** C11: and what is said about lengths that are no complete code. *)
Theorem C11_messages : forall lens msg, N.of_nat (List.length lens) <= 65536 ->
  (tree_new lens = Err (EMsg msg) <-> bad_code lens msg).
Proof. exact C11_lemma_messages. Qed.
Print Assumptions C11_messages.
Example C11_messages_case : bad_code [1] "too few lengths" /\ bad_code [1; 2] "not a tree" /\ bad_code [1; 1; 1; 1] "non-canonical code"
  /\ tree_new [1; 1; 1; 1] = Err (EMsg "non-canonical code") /\ tree_new [1; 1; 1] = Err (EMsg "not a tree").
Proof. repeat split; try (vm_compute; reflexivity); [apply BC_few|apply BC_fraction|apply BC_whole]; cbn; try lia; discriminate. Qed.
