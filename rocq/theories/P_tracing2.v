(** Property C66, exactly: which files the tracing example prints (lib/examples/trace.rs). *)
From Verif Require Import Base M_bit M_lib M_circles M_gzip M_parse M_serialise M_all_refs M_technique M_trace M_example
  Spec Clients Clients_tracing Clients_restore L_P_parse L_level L_P_tracing2.
Local Open Scope N_scope.

(** C66: for every gzip file that decompresses, the example prints its listing if and only if every compressed
    block with codes restores at levels 1 and 6 and its last code ends within five bytes of the preroll's length. *)
Theorem C66_prints_exactly : forall file e header stream trailer blocks, bytes_ok file ->
  file = header ++ stream ++ trailer -> gzip_header header -> stream_bits 0 blocks (bits_of_bytes stream) ->
  (exists data, encodes [] data (flat_map block_codes blocks)) ->
  ((exists lines, example_run (mkSource file e) = (lines, Ok tt)) <-> printable [] blocks).
Proof. exact C66_lemma_exact. Qed.
Print Assumptions C66_prints_exactly.

(** A file of two blocks, the second after other output, that is printed all the same. *)
Definition two_traced : list Block := [FixedHuffman [Literal 5; Literal 5; Literal 5]; FixedHuffman [Literal 5; Reference (mkRef 1 4)]].
Definition two_traced_header : list N := [31; 139; 8; 0; 1; 2; 3; 4; 0; 3].
Definition two_traced_stream : list N := [98; 101; 101; 5; 140; 21; 10; 0].
Example C66_exactly_case : bytes_ok (two_traced_header ++ two_traced_stream ++ [1; 2])
  /\ gzip_header two_traced_header /\ stream_bits 0 two_traced (bits_of_bytes two_traced_stream)
  /\ encodes [] (repeat 5 11) (flat_map block_codes two_traced)
  /\ printable [] two_traced.
Proof.
  split; [repeat constructor|]. split.
  { exists 0, [1; 2; 3; 4; 0; 3], [], [], [], []. repeat split. }
  split.
  { destruct (proj1 (C23_lemma two_traced_stream UnexpectedEof two_traced [] ltac:(repeat constructor))) as (used & E & H).
    - eexists. split; vm_compute; reflexivity.
    - rewrite app_nil_r in E. rewrite E. exact H. }
  split; [vm_compute; reflexivity|].
  apply (pri_cons [] [5; 5; 5]); [vm_compute; reflexivity| |].
  - right. right. split; [|split; [|cbn; lia]]; (apply (found_by _ _ _ _ [Correct; Correct; Correct]); [repeat constructor..|vm_compute; reflexivity|]);
      intros [|[|[|[|i]]]] b E1 E2; discriminate.
  - apply (pri_cons _ [5; 5; 5; 5; 5; 5; 5; 5]); [vm_compute; reflexivity| |constructor].
    right. right. split; [|split; [|vm_compute; lia]]; (apply (found_by _ _ _ _ [ActuallyLiteral; Correct]); [repeat constructor..|vm_compute; reflexivity|]);
      intros [|[|[|i]]] b E1 E2; try discriminate; injection E2 as <-; reflexivity.
Qed.

(** C66: in particular it prints no file that has a compressed block with codes after 264 bytes or more. *)
Theorem C66_never_after_264_bytes : forall file e header stream trailer before b after data, bytes_ok file ->
  file = header ++ stream ++ trailer -> gzip_header header -> stream_bits 0 (before ++ b :: after) (bits_of_bytes stream) ->
  encodes [] data (flat_map block_codes before) -> (264 <= List.length data)%nat ->
  (exists more, encodes [] more (flat_map block_codes (before ++ b :: after))) ->
  (forall d, b <> Uncompressed d) -> block_codes b <> [] ->
  forall lines, example_run (mkSource file e) <> (lines, Ok tt).
Proof. exact C66_lemma_never. Qed.
Print Assumptions C66_never_after_264_bytes.

Definition late_before : list Block := [FixedHuffman [Literal 5; Reference (mkRef 1 255); Reference (mkRef 1 2)]].
Definition late_stream : list N := [98; 29; 5; 96; 0; 24; 59; 0].
Example C66_never_case : bytes_ok (two_traced_header ++ late_stream ++ [])
  /\ stream_bits 0 (late_before ++ FixedHuffman [Literal 7] :: []) (bits_of_bytes late_stream)
  /\ encodes [] (repeat 5 264) (flat_map block_codes late_before)
  /\ encodes [] (repeat 5 264 ++ [7]) (flat_map block_codes (late_before ++ FixedHuffman [Literal 7] :: [])).
Proof.
  split; [repeat constructor|]. split; [|split; vm_compute; reflexivity].
  destruct (proj1 (C23_lemma late_stream UnexpectedEof (late_before ++ [FixedHuffman [Literal 7]]) [] ltac:(repeat constructor))) as (used & E & H).
  - eexists. split; vm_compute; reflexivity.
  - rewrite app_nil_r in E. rewrite E. exact H.
Qed.
