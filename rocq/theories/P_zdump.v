(** Property C109: what dump shows of the output of zero (rezippers/src/zero.rs, rezippers/src/dump.rs). *)
From Verif Require Import Base M_bit M_lib M_circles M_gzip M_parse M_serialise M_rezippers M_dump Spec Clients Clients_file Clients_zero
  L_P_parse L_P_zero L_P_rsync L_P_zsize L_P_zdump P_rsync.
Local Open Scope N_scope.

(** C109: after zero, dump shows one stored block per chunk, with the chunk's length. *)
Theorem C109_chunks : forall inflate header content file chunks, decompressor_right inflate -> bytes_ok file ->
  gzip_of header content file -> content <> [] -> chunks_of content chunks ->
  (forall c, In c chunks -> N.of_nat (List.length c) <> 65536) ->
  exists zeroed, (forall e, zero_run inflate (mkSource file e) new_sink = (Ok tt, mkSink zeroed None))
    /\ forall e, dump_run (mkSource zeroed e)
         = (flat_map (fun p => [DBlock (fst p); DStored (snd p)]) (combine (seq 0 (List.length chunks)) (map (@List.length N) chunks)), Ok tt).
Proof. exact C109_lemma. Qed.
Print Assumptions C109_chunks.

(** C109: a last chunk of 65536 bytes, whose length zero writes as 0, is shown as empty. *)
Theorem C109_last_chunk : forall inflate header content file before c, decompressor_right inflate -> bytes_ok file ->
  gzip_of header content file -> chunks_of content (before ++ [c]) ->
  (forall x, In x before -> N.of_nat (List.length x) <> 65536) -> N.of_nat (List.length c) = 65536 ->
  exists zeroed, (forall e, zero_run inflate (mkSource file e) new_sink = (Ok tt, mkSink zeroed None))
    /\ forall e, dump_run (mkSource zeroed e)
         = (flat_map (fun p => [DBlock (fst p); DStored (snd p)]) (combine (seq 0 (S (List.length before))) (map (@List.length N) before ++ [0%nat])), Ok tt).
Proof. exact C109_lemma_last. Qed.
Print Assumptions C109_last_chunk.

(** C109: two files look the same after zero exactly if their contents are divided at the same places. *)
Theorem C109_same : forall inflate header content file chunks header' content' file' chunks' e, decompressor_right inflate ->
  bytes_ok file -> bytes_ok file' -> gzip_of header content file -> gzip_of header' content' file' -> content <> [] -> content' <> [] ->
  chunks_of content chunks -> chunks_of content' chunks' ->
  (forall c, In c chunks -> N.of_nat (List.length c) <> 65536) -> (forall c, In c chunks' -> N.of_nat (List.length c) <> 65536) ->
  exists z z', zero_run inflate (mkSource file e) new_sink = (Ok tt, mkSink z None) /\ zero_run inflate (mkSource file' e) new_sink = (Ok tt, mkSink z' None)
    /\ (dump_run (mkSource z e) = dump_run (mkSource z' e) <-> map (@List.length N) chunks = map (@List.length N) chunks').
Proof. exact C109_lemma_same. Qed.
Print Assumptions C109_same.

(** "123" in a stored block. *)
Example C109_case : let header := [31; 139; 8; 0; 0; 0; 0; 0; 0; 3] in let content := [49; 50; 51] in let file := header ++ stored_blocks [content] ++ [1; 2] in
  bytes_ok file /\ gzip_of header content file /\ decompressor_right own_inflate /\ chunks_of content [content]
  /\ dump_run (mkSource (written (snd (zero_run own_inflate (mkSource file UnexpectedEof) new_sink))) UnexpectedEof) = ([DBlock 0; DStored 3], Ok tt).
Proof.
  cbv zeta. set (header := [31; 139; 8; 0; 0; 0; 0; 0; 0; 3]).
  assert (GH : gzip_header header) by (exists 0, [0; 0; 0; 0; 0; 3], [], [], [], []; repeat split).
  split; [repeat constructor|]. split; [|split; [exact own_inflate_right|split; vm_compute; reflexivity]].
  destruct (pieces_gzip header [[49; 50; 51]] GH ltac:(discriminate) ltac:(constructor; [split; [repeat constructor|reflexivity]|constructor])) as (stream & tr & blocks & E & _ & SB & HE).
  exists stream, (tr ++ [1; 2]), blocks. split; [|split; [exact GH|split; assumption]].
  rewrite (app_assoc header), E, <- !app_assoc. reflexivity.
Qed.

(** A chunk of 8192 bytes and a last one of 65536. *)
Example C109_last_case : forall z half, z = repeat 0 (N.to_nat 8192) -> half = N.to_nat 32768 ->
  let content := z ++ stubborn in let file := zero_header ++ stored_blocks [z; firstn half stubborn; skipn half stubborn] in
  bytes_ok file /\ gzip_of zero_header content file /\ chunks_of content ([z] ++ [stubborn])
  /\ N.of_nat (List.length z) <> 65536 /\ N.of_nat (List.length stubborn) = 65536.
Proof. exact C78_lost_case. Qed.
