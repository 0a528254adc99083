(** Property C92: reading a file and writing it again (the loop of the round-trip tests, lib/src/lib.rs). *)
From Verif Require Import Base M_bit M_lib M_gzip M_parse M_serialise M_rezippers M_dump Spec Clients Clients_file Clients_verdict Clients_rewrite L_parse L_P_gzip L_P_rewrite.
Local Open Scope N_scope.

(** C92: a file is written again exactly if it is complete and no block lacks a code for its longest matches. *)
Theorem C92_result : forall file blocks en, bytes_ok file -> file_ends file blocks en ->
  match en with
  | Complete => (exists out, recreate_file file = Ok out) /\ ~ Exists lacks_longest blocks
                \/ (exists msg, recreate_file file = Panic msg) /\ Exists lacks_longest blocks
  | Complains msg => recreate_file file = Err (EMsg msg)
  | RunsOut => recreate_file file = Err (EIo UnexpectedEof)
  end.
Proof. exact C92_lemma_result. Qed.
Print Assumptions C92_result.

(** C92: what is written has the blocks that were read exactly if every stored block has a length that reads the same in
    either byte order. *)
Theorem C92_rewriting_exactly : forall file blocks out, bytes_ok file -> file_ends file blocks Complete -> recreate_file file = Ok out ->
  bytes_ok out /\ (file_ends out blocks Complete <-> lengths_symmetric blocks).
Proof. exact C92_lemma_exact. Qed.
Print Assumptions C92_rewriting_exactly.

(** C92, proved part: with such lengths cat and dump do the same with what was written, whatever room there is for the
    output.  Missing: other stored blocks, for which it is false (below). *)
Theorem C92_same_output_partial : forall file blocks out, bytes_ok file -> file_ends file blocks Complete -> recreate_file file = Ok out ->
  lengths_symmetric blocks ->
  forall e room, dump_run (mkSource out e) = dump_run (mkSource file e)
    /\ fst (cat_run (mkSource out e) (sink_with room)) = fst (cat_run (mkSource file e) (sink_with room))
    /\ written (snd (cat_run (mkSource out e) (sink_with room))) = written (snd (cat_run (mkSource file e) (sink_with room))).
Proof. exact C92_lemma_same. Qed.
Print Assumptions C92_same_output_partial.

(** C92, proved part: with such lengths writing it again changes nothing more. *)
Theorem C92_idempotent_partial : forall file blocks out, bytes_ok file -> file_ends file blocks Complete -> recreate_file file = Ok out ->
  lengths_symmetric blocks -> recreate_file out = Ok out.
Proof. exact C92_lemma_idempotent. Qed.
Print Assumptions C92_idempotent_partial.

(** C92 is false of the code: a file that cat prints is written as one that cat fails on. *)
Theorem C92_rewriting_refuted : exists file out, bytes_ok file /\ recreate_file file = Ok out
  /\ cat_run (mkSource file UnexpectedEof) new_sink = (Ok tt, mkSink [104; 101; 108; 108; 111] None)
  /\ fst (cat_run (mkSource out UnexpectedEof) new_sink) = Err (EIo UnexpectedEof).
Proof. exact C92_lemma_refuted. Qed.
Print Assumptions C92_rewriting_refuted.

(** A fixed block with a match of length 258 written as symbol 284 with all extra bits set, after the literal "a"; an empty
    stored block behind it.  Written again it has other bytes and the same content. *)
Definition C92_header := [31; 139; 8; 0; 0; 0; 0; 0; 0; 3].
Definition C92_stream := [74; 28; 249; 0; 16; 0; 0; 255; 255].
Definition C92_tail := [5; 6].
Definition C92_blocks := [FixedHuffman [Literal 97; Reference (mkRef 1 255)]; Uncompressed []].

Example C92_case : let file := C92_header ++ C92_stream ++ C92_tail in
  bytes_ok file /\ file_ends file C92_blocks Complete /\ lengths_symmetric C92_blocks /\ ~ Exists lacks_longest C92_blocks
  /\ exists out, recreate_file file = Ok out /\ out <> file /\ recreate_file out = Ok out
     /\ cat_run (mkSource out UnexpectedEof) new_sink = (Ok tt, mkSink (repeat 97 259) None).
Proof.
  cbv zeta. assert (B : bytes_ok (C92_header ++ C92_stream ++ C92_tail)) by repeat constructor.
  assert (P : exists it, parse_all (mkSource (C92_stream ++ C92_tail) UnexpectedEof) = (Ok C92_blocks, it)
                         /\ br_into_inner (bi_inner it) = Ok (mkSource C92_tail UnexpectedEof)) by (eexists; split; vm_compute; reflexivity).
  apply parse_all_iff in P; [|repeat constructor]. destruct P as (used & EU & SB). apply app_inv_tail in EU. subst used.
  assert (F : file_ends (C92_header ++ C92_stream ++ C92_tail) C92_blocks Complete).
  { constructor; [|exact SB]. apply (proj1 (C31_lemma C92_header UnexpectedEof C92_header [] ltac:(repeat constructor))). vm_compute. reflexivity. }
  split; [exact B|]. split; [exact F|]. split; [intros data [E|[E|[]]]; [discriminate E|injection E as <-; reflexivity]|]. split.
  - intro H. destruct (C92_result _ _ _ B F) as [[_ N]|[(msg & E) _]]; [exact (N H)|vm_compute in E; discriminate E].
  - eexists. split; [vm_compute; reflexivity|]. split; [discriminate|]. split; vm_compute; reflexivity.
Qed.
