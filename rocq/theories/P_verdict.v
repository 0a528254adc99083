(** Property C88: what the commands make of any file. *)
From Verif Require Import Base M_bit M_lib M_circles M_gzip M_parse M_serialise M_rezippers M_dump M_text M_io M_main Spec Clients Clients_file Clients_io Clients_main Clients_wrong Clients_verdict L_parse L_P_verdict.
Local Open Scope N_scope.

(** C88: in every file exactly one list of blocks and one ending is found. *)
Theorem C88_always : forall file, bytes_ok file -> exists blocks en, file_ends file blocks en.
Proof. exact C88_lemma_always. Qed.
Print Assumptions C88_always.
Theorem C88_one : forall file b1 en1 b2 en2, bytes_ok file -> file_ends file b1 en1 -> file_ends file b2 en2 -> b1 = b2 /\ en1 = en2.
Proof. exact C88_lemma_one. Qed.
Print Assumptions C88_one.

(** C88: dump lists those blocks, and its result is the ending. *)
Theorem C88_dump : forall file e blocks en, bytes_ok file -> file_ends file blocks en -> dump_run (mkSource file e) = (listing 0 blocks, result_of e en).
Proof. exact C88_lemma_dump. Qed.
Print Assumptions C88_dump.

(** C88: of any codes exactly so much can be decoded. *)
Theorem C88_decodes : forall codes, exists data all, decodes codes data all.
Proof. exact C88_lemma_decodes. Qed.
Print Assumptions C88_decodes.
Theorem C88_decodes_one : forall codes d1 a1 d2 a2, decodes codes d1 a1 -> decodes codes d2 a2 -> d1 = d2 /\ a1 = a2.
Proof. exact C88_lemma_decodes_one. Qed.
Print Assumptions C88_decodes_one.

(** C88: cat writes what those blocks decode to, as far as there is room; its result is the ending, unless a reference
    leaves the window before that or the room does not suffice. *)
Theorem C88_cat : forall file e room blocks en data all, bytes_ok file -> file_ends file blocks en -> decodes (flat_map block_codes blocks) data all ->
  exists out, cat_run (mkSource file e) (sink_with room)
    = (if fits room data then if all then result_of e en else Err (EMsg "dist must fit") else Err (EIo OtherIo), out)
  /\ written out = taken room data.
Proof. exact C88_lemma_cat. Qed.
Print Assumptions C88_cat.

(** C88: and as processes they exit with status 0 exactly for a complete file that decodes. *)
Theorem C88_status : forall inflate split f w events e blocks en data all, (forall l, List.concat (split l) = l) ->
  input_of w (Cat f) = Ok (mkRd events e) -> rd_ok events -> bytes_ok (rd_bytes events) ->
  wr_written (w_device w) = [] -> wr_ok (wr_events (w_device w)) -> wr_fails (w_device w) = false ->
  file_ends (rd_bytes events) blocks en -> decodes (flat_map block_codes blocks) data all ->
  main_run inflate split (Cat f) w = (Some (match en, all with Complete, true => 0 | _, _ => 1 end), data).
Proof. exact C88_lemma_status. Qed.
Print Assumptions C88_status.
Theorem C88_status_dump : forall inflate split f w events e blocks en text, (forall l, List.concat (split l) = l) ->
  input_of w (Dump f) = Ok (mkRd events e) -> rd_ok events -> bytes_ok (rd_bytes events) ->
  wr_written (w_device w) = [] -> wr_ok (wr_events (w_device w)) -> wr_fails (w_device w) = false ->
  file_ends (rd_bytes events) blocks en -> dump_text (listing 0 blocks) = Ok text ->
  main_run inflate split (Dump f) w = (Some (match en with Complete => 0 | _ => 1 end), text).
Proof. exact C88_lemma_status_dump. Qed.
Print Assumptions C88_status_dump.

(** Ten bytes of header; an empty stored block; then the last block: "a", or a reference to before the start, a reserved
    type, and cuts. *)
Definition plain_header : list N := [31; 139; 8; 0; 0; 0; 0; 0; 0; 3].
Definition first_block : list N := [0; 0; 0; 255; 255].
Example C88_case : let e := UnexpectedEof in
  file_ends (plain_header ++ (first_block ++ [75; 4; 0]) ++ [9; 9]) [Uncompressed []; FixedHuffman [Literal 97]] Complete
  /\ decodes [Literal 97] [97] true
  /\ cat_run (mkSource (plain_header ++ (first_block ++ [75; 4; 0]) ++ [9; 9]) e) new_sink = (Ok tt, mkSink [97] None)
  /\ file_ends (plain_header ++ (first_block ++ [7])) [Uncompressed []] (Complains "reserved block type")
  /\ dump_run (mkSource (plain_header ++ first_block ++ [7]) e) = ([DBlock 0; DStored 0], Err (EMsg "reserved block type"))
  /\ file_ends ([31; 139; 8; 32; 0; 0; 0; 0; 0; 3] ++ [7]) [] (Complains "reserved flags bits set")
  /\ file_ends [1; 2; 3] [] RunsOut
  /\ file_ends [31; 139; 8; 8; 0; 0; 0; 0; 0; 3; 97] [] RunsOut
  /\ file_ends (plain_header ++ first_block) [Uncompressed []] RunsOut
  /\ decodes [Literal 97; Reference (mkRef 2 0); Literal 98] [97] false
  /\ fst (cat_run (mkSource (plain_header ++ [75; 4; 66; 0]) e) new_sink) = Err (EMsg "dist must fit")
  /\ cat_run (mkSource (plain_header ++ [75; 4; 0]) e) (sink_with (Some 0%nat)) = (Err (EIo OtherIo), mkSink [] (Some 0%nat)).
Proof.
  assert (G : gzip_header plain_header).
  { exists 0, [0; 0; 0; 0; 0; 3], [], [], [], []. repeat split. }
  assert (B : block_bits 1 (Uncompressed []) ([false; false] ++ repeat false 5 ++ bits_of_bytes ([0; 0] ++ [255; 255] ++ []))).
  { apply (BK_stored 1 [] 5); [reflexivity|constructor|split; [repeat constructor|reflexivity]]. }
  assert (S : stream_bits 0 [Uncompressed []; FixedHuffman [Literal 97]] (bits_of_bytes (first_block ++ [75; 4; 0]))).
  { assert (X : exists used, (first_block ++ [75; 4; 0]) ++ [9; 9] = used ++ [9; 9] /\ stream_bits 0 [Uncompressed []; FixedHuffman [Literal 97]] (bits_of_bytes used)).
    { apply (parse_all_iff _ UnexpectedEof); [repeat constructor|]. eexists. split; vm_compute; reflexivity. }
    destruct X as (used & E & S). apply app_inv_tail in E. now subst used. }
  cbv zeta. split; [apply FE_complete; [exact G|exact S]|]. split; [constructor; reflexivity|]. split; [vm_compute; reflexivity|]. split.
  { apply (FE_wrong plain_header (first_block ++ [7]) [Uncompressed []] _ (bits_of_bytes first_block ++ [true; true; true]) (repeat false 5)); [exact G|reflexivity|].
    apply (WS_next 0 (Uncompressed []) [] _ _ [true; true; true] B). apply (WS_block _ true _ [true; true]). constructor. }
  split; [vm_compute; reflexivity|]. split.
  { apply FE_start. apply (WT_flags 32 [0; 0; 0; 0; 0; 3]); [reflexivity|lia]. }
  split; [apply FE_ten; cbn; lia|]. split.
  { apply (FE_header_short _ [0]); [|repeat constructor|discriminate]. exists 8, [0; 0; 0; 0; 0; 3], [], [97; 0], [], [].
    repeat split. exists [97]. split; [reflexivity|intros [E|[]]; discriminate]. }
  split.
  { apply (FE_short plain_header first_block [Uncompressed []] (bits_of_bytes first_block) []); [exact G|reflexivity| |].
    - apply (LD_block 0 (Uncompressed []) [] _ [] B). constructor.
    - intros last w t' E. discriminate E. }
  split; [apply (DC_far _ [Literal 97] (mkRef 2 0) [Literal 98]); [reflexivity|reflexivity|cbn; lia]|].
  split; vm_compute; reflexivity.
Qed.
