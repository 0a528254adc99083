(** Property C99: what zero writes is protected by its checksum (rezippers/src/zero.rs). *)
From Verif Require Import Base M_bit M_lib M_circles M_gzip M_parse M_serialise M_rezippers Spec Clients Clients_zero Clients_members
  L_P_parse L_P_zero L_P_rsync L_P_crc.
Local Open Scope N_scope.

(** C99: contents that differ only within 32 consecutive bits have different checksums.  The bits of a byte come lowest
    first, as in DEFLATE. *)
Theorem C99_checksum : forall data data' before m m' after,
  bits_of_bytes data = before ++ m ++ after -> bits_of_bytes data' = before ++ m' ++ after ->
  List.length m = List.length m' -> (List.length m <= 32)%nat -> m <> m' -> crc32 data <> crc32 data'.
Proof. exact C99_lemma_burst. Qed.
Print Assumptions C99_checksum.

Example C99_checksum_case : forall before m m' after, before = bits_of_bytes [1; 2] -> m = bits_of_bytes [3; 4] -> m' = bits_of_bytes [3; 5] -> after = bits_of_bytes [6] ->
  bits_of_bytes [1; 2; 3; 4; 6] = before ++ m ++ after /\ bits_of_bytes [1; 2; 3; 5; 6] = before ++ m' ++ after
  /\ List.length m = List.length m' /\ (List.length m <= 32)%nat /\ m <> m' /\ crc32 [1; 2; 3; 4; 6] <> crc32 [1; 2; 3; 5; 6].
Proof.
  intros before m m' after -> -> -> ->. split; [reflexivity|]. split; [reflexivity|]. split; [reflexivity|]. split; [vm_compute; lia|].
  split; vm_compute; discriminate.
Qed.

(** C99: zero's output is a gzip member as RFC 1952 has it, with the right checksum and length.  Missing from the full
    property: contents with a chunk of 65536 bytes (refuted below), and empty ones, on which the command panics (C49). *)
Theorem C99_member_partial : forall inflate header content file chunks, decompressor_right inflate -> bytes_ok file -> gzip_of header content file ->
  content <> [] -> chunks_of content chunks -> (forall c, In c chunks -> N.of_nat (List.length c) <> 65536) ->
  exists zeroed, (forall e, zero_run inflate (mkSource file e) new_sink = (Ok tt, mkSink zeroed None)) /\ member content zeroed.
Proof. exact C99_lemma_member. Qed.
Print Assumptions C99_member_partial.

(** C99 is false of the code in full: for some file, zero's output is no member with the file's content. *)
Theorem C99_member_refuted : exists header content file, bytes_ok file /\ gzip_of header content file /\ content <> []
  /\ forall inflate e, decompressor_right inflate ->
       exists zeroed, zero_run inflate (mkSource file e) new_sink = (Ok tt, mkSink zeroed None) /\ bytes_ok zeroed /\ ~ member content zeroed.
Proof. exact C99_lemma_refuted. Qed.
Print Assumptions C99_member_refuted.

(** C99: if at most four consecutive bytes of a chunk [x ++ m ++ y] are then changed in that file, it is no member at all,
    so that everyone who checks the checksum rejects it; cat does not check it, and prints the changed content.  Missing: as
    before. *)
Theorem C99_damage_partial : forall inflate header content file before x m y after, decompressor_right inflate -> bytes_ok file -> gzip_of header content file ->
  content <> [] -> chunks_of content (before ++ (x ++ m ++ y) :: after) ->
  (forall c, In c (before ++ (x ++ m ++ y) :: after) -> N.of_nat (List.length c) <> 65536) ->
  exists start rest, (forall e, zero_run inflate (mkSource file e) new_sink = (Ok tt, mkSink (start ++ m ++ rest) None))
    /\ forall m', bytes_ok m' -> m' <> m -> List.length m' = List.length m -> (List.length m <= 4)%nat ->
      (forall e, cat_run (mkSource (start ++ m' ++ rest) e) new_sink
         = (Ok tt, mkSink (flat_map (fun c => c) before ++ x ++ m' ++ y ++ flat_map (fun c => c) after) None))
      /\ forall any, ~ member any (start ++ m' ++ rest).
Proof. exact C99_lemma_damage. Qed.
Print Assumptions C99_damage_partial.

(** C99: the same if the last 8 bytes are changed, in any way; cat prints the content.  Missing: as before. *)
Theorem C99_trailer_partial : forall inflate header content file chunks, decompressor_right inflate -> bytes_ok file -> gzip_of header content file ->
  content <> [] -> chunks_of content chunks -> (forall c, In c chunks -> N.of_nat (List.length c) <> 65536) ->
  exists start eight, List.length eight = 8%nat /\ (forall e, zero_run inflate (mkSource file e) new_sink = (Ok tt, mkSink (start ++ eight) None))
    /\ forall other, bytes_ok other -> List.length other = 8%nat -> other <> eight ->
      (forall e, cat_run (mkSource (start ++ other) e) new_sink = (Ok tt, mkSink content None)) /\ forall any, ~ member any (start ++ other).
Proof. exact C99_lemma_trailer. Qed.
Print Assumptions C99_trailer_partial.

Definition crc_header : list N := [31; 139; 8; 0; 0; 0; 0; 0; 0; 3].
Definition crc_file : list N := crc_header ++ [75; 76; 74; 78; 4; 163; 20; 0] ++ [1; 2; 3].
Definition crc_content : list N := [97; 98; 99; 97; 98; 99; 97; 98; 99; 100].
Example C99_case : decompressor_right own_inflate /\ bytes_ok crc_file /\ gzip_of crc_header crc_content crc_file
  /\ crc_content <> [] /\ chunks_of crc_content ([] ++ ([97; 98] ++ [99; 97; 98] ++ [99; 97; 98; 99; 100]) :: [])
  /\ (forall c, In c ([] ++ ([97; 98] ++ [99; 97; 98] ++ [99; 97; 98; 99; 100]) :: []) -> N.of_nat (List.length c) <> 65536)
  /\ [99; 0; 98] <> [99; 97; 98]
  /\ zero_run own_inflate (mkSource crc_file UnexpectedEof) new_sink
     = (Ok tt, mkSink (crc_header ++ [1; 10; 0; 245; 255] ++ crc_content ++ [210; 255; 247; 139; 10; 0; 0; 0]) None).
Proof.
  assert (H : gzip_header crc_header) by (exists 0, [0; 0; 0; 0; 0; 3], [], [], [], []; repeat split).
  split; [exact own_inflate_right|]. split; [repeat constructor|]. split.
  { set (b := [FixedHuffman [Literal 97; Literal 98; Literal 99; Literal 97; Reference (mkRef 3 2); Literal 100]]). set (s := [75; 76; 74; 78; 4; 163; 20; 0]).
    destruct (proj1 (C23_lemma s UnexpectedEof b [] ltac:(repeat constructor))) as (used & E & X); [eexists; split; vm_compute; reflexivity|].
    rewrite app_nil_r in E. subst used. exists s, [1; 2; 3], b. split; [reflexivity|]. split; [exact H|]. split; [exact X|vm_compute; reflexivity]. }
  split; [discriminate|]. split; [vm_compute; reflexivity|]. split; [|split; [discriminate|vm_compute; reflexivity]].
  intros c [<-|[]]. vm_compute. discriminate.
Qed.
