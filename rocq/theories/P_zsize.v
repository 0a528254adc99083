(** Property C105: how long the output of zero is (rezippers/src/zero.rs). *)
From Verif Require Import Base M_bit M_lib M_circles M_gzip M_parse M_serialise M_rezippers Spec Clients Clients_zero
  L_P_parse L_P_zero L_P_rsync L_P_zsize.
Local Open Scope N_scope.

(** C105: the output is longer than the header, the content and the trailer by at least five bytes for every 65536 bytes of content and at most five
    bytes for every 8192 bytes of content, both rounded up. *)
Theorem C105_size : forall inflate header content file, decompressor_right inflate -> bytes_ok file -> gzip_of header content file -> content <> [] ->
  exists zeroed, (forall e, zero_run inflate (mkSource file e) new_sink = (Ok tt, mkSink zeroed None))
    /\ let n := N.of_nat (List.length content) in let others := N.of_nat (List.length header) + n + 8 in
       others + 5 * ((n + 65535) / 65536) <= N.of_nat (List.length zeroed) <= others + 5 * ((n + 8191) / 8192).
Proof. exact C105_lemma_size. Qed.
Print Assumptions C105_size.

(** C105: it is longer by five bytes for every chunk. *)
Theorem C105_exactly : forall inflate header content file chunks, decompressor_right inflate -> bytes_ok file -> gzip_of header content file -> content <> [] ->
  chunks_of content chunks ->
  exists zeroed, (forall e, zero_run inflate (mkSource file e) new_sink = (Ok tt, mkSink zeroed None))
    /\ N.of_nat (List.length zeroed) = N.of_nat (List.length header) + N.of_nat (List.length content) + 5 * N.of_nat (List.length chunks) + 8.
Proof. exact C105_lemma_exact. Qed.
Print Assumptions C105_exactly.

Example C105_case : let header := [31; 139; 8; 0; 0; 0; 0; 0; 0; 3] in let content := [49; 50; 51] in let file := header ++ stored_blocks [content] ++ [1; 2] in
  bytes_ok file /\ gzip_of header content file /\ decompressor_right own_inflate /\ chunks_of content [content]
  /\ zero_run own_inflate (mkSource file UnexpectedEof) new_sink
     = (Ok tt, mkSink ([31; 139; 8; 0; 0; 0; 0; 0; 0; 3] ++ [1; 3; 0; 252; 255; 49; 50; 51] ++ [210; 99; 72; 136; 3; 0; 0; 0]) None).
Proof.
  cbv zeta. set (header := [31; 139; 8; 0; 0; 0; 0; 0; 0; 3]).
  assert (GH : gzip_header header) by (exists 0, [0; 0; 0; 0; 0; 3], [], [], [], []; repeat split).
  split; [repeat constructor|]. split; [|split; [exact own_inflate_right|split; vm_compute; reflexivity]].
  destruct (pieces_gzip header [[49; 50; 51]] GH ltac:(discriminate) ltac:(constructor; [split; [repeat constructor|reflexivity]|constructor])) as (stream & tr & blocks & E & _ & SB & HE).
  exists stream, (tr ++ [1; 2]), blocks. split; [|split; [exact GH|split; assumption]].
  rewrite (app_assoc header), E, <- !app_assoc. reflexivity.
Qed.

(** C105: both bounds are reached, however long the content. *)
Theorem C105_bounds_are_reached : forall inflate header k, decompressor_right inflate -> bytes_ok header -> gzip_header header -> (0 < k)%nat ->
  (exists content file, bytes_ok file /\ gzip_of header content file /\ N.of_nat (List.length content) = 65536 * N.of_nat k
    /\ exists zeroed, (forall e, zero_run inflate (mkSource file e) new_sink = (Ok tt, mkSink zeroed None))
        /\ N.of_nat (List.length zeroed) = N.of_nat (List.length header) + N.of_nat (List.length content) + 8 + 5 * N.of_nat k)
  /\ (exists content file, bytes_ok file /\ gzip_of header content file /\ N.of_nat (List.length content) = 8192 * N.of_nat k
    /\ exists zeroed, (forall e, zero_run inflate (mkSource file e) new_sink = (Ok tt, mkSink zeroed None))
        /\ N.of_nat (List.length zeroed) = N.of_nat (List.length header) + N.of_nat (List.length content) + 8 + 5 * N.of_nat k).
Proof. exact C105_lemma_bounds. Qed.
Print Assumptions C105_bounds_are_reached.

Example C105_bounds_case : bytes_ok [31; 139; 8; 0; 0; 0; 0; 0; 0; 3] /\ gzip_header [31; 139; 8; 0; 0; 0; 0; 0; 0; 3] /\ decompressor_right own_inflate /\ (0 < 3)%nat.
Proof.
  split; [repeat constructor|]. split; [exists 0, [0; 0; 0; 0; 0; 3], [], [], [], []; repeat split|]. split; [exact own_inflate_right|repeat constructor].
Qed.
