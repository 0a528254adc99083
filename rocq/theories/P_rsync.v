(** Properties C49 (the exact bytes), C78 and C79: what the zero command does to files, and its chunks
    (rezippers/src/zero.rs). *)
From Verif Require Import Base M_bit M_lib M_circles M_gzip M_parse M_serialise M_rezippers Spec Clients Clients_zero
  L_P_parse L_P_zero L_P_rsync.
Local Open Scope N_scope.

(** C49: the exact output for every content, including those for which the property is false: a chunk of 65536
    bytes is written with the length 0. *)
Theorem C49_zero_bytes : forall (inflate : source -> byte_iter) file e header body content chunks,
  discard_header (mkSource file e) = (Ok header, mkSource body e) ->
  inflate (mkSource body e) = map inl content -> bytes_ok content -> content <> [] -> chunks_of content chunks ->
  zero_run inflate (mkSource file e) new_sink
  = (Ok tt, mkSink (header ++ stored_blocks chunks ++ le32_bytes (crc32 content) ++ le32_bytes (N.of_nat (List.length content) mod 2 ^ 32)) None).
Proof. exact C49_lemma_bytes. Qed.
Print Assumptions C49_zero_bytes.

Example C49_bytes_case :
  stored_blocks [[7; 8]; [9]] = [0; 2; 0; 253; 255; 7; 8; 1; 1; 0; 254; 255; 9]
  /\ chunks_of [49; 50; 51] [[49; 50; 51]].
Proof. split; vm_compute; reflexivity. Qed.

(** C78: zero's output is a gzip file with the same header and content, on which cat does the same, and it is the
    same for every file with that header and content, in particular for itself.  Missing from the full property:
    contents with a chunk of 65536 bytes (refuted below) and empty contents, on which the command panics (C49). *)
Theorem C78_zero_keeps_content_partial : forall inflate header content file chunks, decompressor_right inflate -> bytes_ok file ->
  gzip_of header content file -> content <> [] -> chunks_of content chunks ->
  (forall c, In c chunks -> N.of_nat (List.length c) <> 65536) ->
  exists zeroed,
    (forall e, zero_run inflate (mkSource file e) new_sink = (Ok tt, mkSink zeroed None))
    /\ gzip_of header content zeroed
    /\ (forall e e', cat_run (mkSource zeroed e) new_sink = cat_run (mkSource file e') new_sink)
    /\ forall other e, bytes_ok other -> gzip_of header content other ->
         zero_run inflate (mkSource other e) new_sink = (Ok tt, mkSink zeroed None).
Proof. exact C78_lemma. Qed.
Print Assumptions C78_zero_keeps_content_partial.

(** Two files with the same header and content, compressed in different ways, and a right decompressor. *)
Definition zero_header : list N := [31; 139; 8; 0; 0; 0; 0; 0; 0; 3].
Definition zero_one : list N := zero_header ++ [75; 76; 74; 78; 4; 163; 20; 0] ++ [1; 2; 3].
Definition zero_two : list N := zero_header ++ [75; 76; 74; 78; 76; 74; 78; 76; 74; 78; 1; 0].
Definition zero_content : list N := [97; 98; 99; 97; 98; 99; 97; 98; 99; 100].
Example C78_case : decompressor_right own_inflate
  /\ bytes_ok zero_one /\ gzip_of zero_header zero_content zero_one
  /\ bytes_ok zero_two /\ gzip_of zero_header zero_content zero_two
  /\ chunks_of zero_content [zero_content].
Proof.
  assert (H : gzip_header zero_header) by (exists 0, [0; 0; 0; 0; 0; 3], [], [], [], []; repeat split).
  split; [exact own_inflate_right|]. split; [repeat constructor|]. split; [|split; [repeat constructor|split; [|vm_compute; reflexivity]]].
  - set (b := [FixedHuffman [Literal 97; Literal 98; Literal 99; Literal 97; Reference (mkRef 3 2); Literal 100]]). set (s := [75; 76; 74; 78; 4; 163; 20; 0]).
    destruct (proj1 (C23_lemma s UnexpectedEof b [] ltac:(repeat constructor))) as (used & E & X); [eexists; split; vm_compute; reflexivity|].
    rewrite app_nil_r in E. subst used. exists s, [1; 2; 3], b. split; [reflexivity|]. split; [exact H|]. split; [exact X|vm_compute; reflexivity].
  - set (b := [FixedHuffman (map Literal zero_content)]). set (s := [75; 76; 74; 78; 76; 74; 78; 76; 74; 78; 1; 0]).
    destruct (proj1 (C23_lemma s UnexpectedEof b [] ltac:(repeat constructor))) as (used & E & X); [eexists; split; vm_compute; reflexivity|].
    rewrite app_nil_r in E. subst used. exists s, [], b. split; [reflexivity|]. split; [exact H|]. split; [exact X|vm_compute; reflexivity].
Qed.

(** C78 is false of the code in full: cat prints nothing from zero's output for some file with content. *)
Theorem C78_zero_keeps_content_refuted : exists header content file, bytes_ok file /\ gzip_of header content file /\ content <> []
  /\ forall inflate e, decompressor_right inflate ->
       exists zeroed, zero_run inflate (mkSource file e) new_sink = (Ok tt, mkSink zeroed None)
         /\ forall e', cat_run (mkSource zeroed e') new_sink = (Ok tt, mkSink [] None).
Proof. exact C78_lemma_refuted. Qed.
Print Assumptions C78_zero_keeps_content_refuted.

(** C78: a last chunk of 65536 bytes is what is lost then: cat prints everything before it and reports success. *)
Theorem C78_last_chunk_lost : forall inflate header content file before c e, decompressor_right inflate -> bytes_ok file ->
  gzip_of header content file -> chunks_of content (before ++ [c]) ->
  (forall x, In x before -> N.of_nat (List.length x) <> 65536) -> N.of_nat (List.length c) = 65536 ->
  exists zeroed, zero_run inflate (mkSource file e) new_sink = (Ok tt, mkSink zeroed None)
    /\ forall e', cat_run (mkSource zeroed e') new_sink = (Ok tt, mkSink (flat_map (fun x => x) before) None).
Proof. exact C78_lemma_last. Qed.
Print Assumptions C78_last_chunk_lost.

Example C78_lost_case : forall z half, z = repeat 0 (N.to_nat 8192) -> half = N.to_nat 32768 ->
  let content := z ++ stubborn in let file := zero_header ++ stored_blocks [z; firstn half stubborn; skipn half stubborn] in
  bytes_ok file /\ gzip_of zero_header content file /\ chunks_of content [z; stubborn]
  /\ N.of_nat (List.length z) <> 65536 /\ N.of_nat (List.length stubborn) = 65536.
Proof.
  intros z half EZ EH. cbv zeta. assert (LZ : List.length z = N.to_nat 8192) by (subst z; apply repeat_length).
  assert (LS := stubborn_length). assert (BS := stubborn_bytes). assert (CH := zeros_stubborn z EZ).
  assert (BZ : bytes_ok z) by (subst z; apply Forall_forall; intros x HX; apply repeat_spec in HX; subst x; reflexivity).
  assert (AB := firstn_skipn half stubborn). assert (BAB : bytes_ok (firstn half stubborn) /\ bytes_ok (skipn half stubborn)) by (rewrite <- AB in BS; apply Forall_app in BS; exact BS).
  assert (LA : List.length (firstn half stubborn) = N.to_nat 32768) by (rewrite firstn_length; lia).
  assert (LB : List.length (skipn half stubborn) = N.to_nat 32768) by (rewrite skipn_length; lia).
  assert (GH : gzip_header zero_header) by (exists 0, [0; 0; 0; 0; 0; 3], [], [], [], []; repeat split).
  split.
  { apply Forall_app. split; [repeat constructor|]. rewrite <- stored_blocks_eq. apply chunks_bytes_ok. repeat (constructor; [tauto|]). constructor. }
  split; [|split; [exact CH|split; lia]].
  assert (G := pieces_gzip zero_header [z; firstn half stubborn; skipn half stubborn] GH ltac:(discriminate) ltac:(repeat (constructor; [split; [tauto|lia]|]); constructor)).
  cbn [flat_map] in G. rewrite app_nil_r, AB in G. exact G.
Qed.

(** C79: chunks before an edit stay the same. *)
Theorem C79_chunks_before_an_edit : forall content edited before after rest chunks, bytes_ok content -> bytes_ok edited ->
  chunks_of content (before ++ after) -> after <> [] ->
  edited = flat_map (fun c => c) before ++ rest -> chunks_of edited chunks ->
  exists after', chunks = before ++ after'.
Proof. exact C79_lemma_before. Qed.
Print Assumptions C79_chunks_before_an_edit.

(** C79: chunks after an edit are the same from the first common boundary on. *)
Theorem C79_chunks_after_an_edit : forall content edited before before' after after', bytes_ok content -> bytes_ok edited ->
  chunks_of content (before ++ after) -> chunks_of edited (before' ++ after') ->
  flat_map (fun c => c) after = flat_map (fun c => c) after' -> after = after'.
Proof. exact C79_lemma_after. Qed.
Print Assumptions C79_chunks_after_an_edit.

(** C79: wherever 8192 bytes sum to a multiple of 4096, there is a boundary there or at most 8191 bytes before,
    whatever comes before these bytes. *)
Theorem C79_boundaries_are_local : forall content chunks p, bytes_ok content -> chunks_of content chunks ->
  (N.to_nat 8192 <= p <= List.length content)%nat -> rsync_stop (firstn p content) ->
  exists before after, chunks = before ++ after
    /\ (p - N.to_nat 8192 < List.length (flat_map (fun c => c) before) <= p)%nat.
Proof. exact C79_lemma_near. Qed.
Print Assumptions C79_boundaries_are_local.

Example C79_case : let z := repeat 0 (N.to_nat 8192) in
  chunks_of (z ++ [7; 8]) [z; [7; 8]] /\ bytes_ok (z ++ [7; 8])
  /\ (N.to_nat 8192 <= N.to_nat 8192 <= List.length (z ++ [7; 8]%N))%nat /\ rsync_stop (firstn (N.to_nat 8192) (z ++ [7; 8])).
Proof.
  cbn zeta. assert (LZ : List.length (repeat 0 (N.to_nat 8192)) = N.to_nat 8192) by apply repeat_length.
  split; [exact zeros_then|]. split.
  { apply Forall_app. split; [|repeat constructor]. apply Forall_forall. intros x HX. apply repeat_spec in HX. subst x. reflexivity. }
  rewrite app_length, LZ. split; [lia|]. rewrite firstn_app, LZ, Nat.sub_diag, firstn_O, app_nil_r, <- LZ, firstn_all, LZ.
  unfold rsync_stop. rewrite lastn_repeat, sum_zeros. reflexivity.
Qed.
