(** Property C95: what the zero command leaves behind when it does not finish (rezippers/src/zero.rs). *)
From Verif Require Import Base M_bit M_lib M_gzip M_parse M_rezippers Spec Clients Clients_zero L_P_unfinished.
Local Open Scope N_scope.

(** C95: if the decompressor reports an error, zero fails with it and has written the header and a block that is not
    final for every chunk completed before, nothing else. *)
Theorem C95_decompressor_error : forall (inflate : source -> byte_iter) file e header body data x more chunks rest,
  discard_header (mkSource file e) = (Ok header, mkSource body e) ->
  inflate (mkSource body e) = map inl data ++ inr x :: more ->
  Forall (fun x => match x with inl b => b < 256 | inr _ => True end) (inflate (mkSource body e)) ->
  unfinished data chunks rest ->
  zero_run inflate (mkSource file e) new_sink = (Err (EIo x), mkSink (header ++ flat_map (stored_block false) chunks) None).
Proof. exact C95_lemma_error. Qed.
Print Assumptions C95_decompressor_error.
Theorem C95_always : forall data, bytes_ok data -> exists chunks rest, unfinished data chunks rest.
Proof. exact C95_lemma_always. Qed.
Print Assumptions C95_always.

(** C95, proved part: cat, given that, prints those chunks and fails at the end of the input.  Missing: chunks of 65536
    bytes, for which it is false (below). *)
Theorem C95_refused_partial : forall (inflate : source -> byte_iter) file e header body data x more chunks rest, bytes_ok file ->
  discard_header (mkSource file e) = (Ok header, mkSource body e) ->
  inflate (mkSource body e) = map inl data ++ inr x :: more ->
  Forall (fun x => match x with inl b => b < 256 | inr _ => True end) (inflate (mkSource body e)) ->
  unfinished data chunks rest -> (forall c, In c chunks -> N.of_nat (List.length c) <> 65536) ->
  exists left, zero_run inflate (mkSource file e) new_sink = (Err (EIo x), mkSink left None)
    /\ forall e', exists out, cat_run (mkSource left e') new_sink = (Err (EIo e'), out) /\ written out = flat_map (fun c => c) chunks.
Proof. exact C95_lemma_refused. Qed.
Print Assumptions C95_refused_partial.

(** A chunk of zeros, then two bytes and the error. *)
Example C95_case : forall n, n = N.to_nat 8192 -> unfinished (repeat 0 n ++ [7; 8]) [repeat 0 n] [7; 8]
  /\ forall c, In c [repeat 0 n] -> N.of_nat (List.length c) <> 65536.
Proof.
  intros n E. split; [now apply zeros_unfinished|]. intros c [<-|[]]. rewrite repeat_length. lia.
Qed.
Example C95_case_run : let file := [31; 139; 8; 0; 0; 0; 0; 0; 0; 3] ++ [75; 76] in
  let inflate (_ : source) : byte_iter := [inl 97; inl 98; inr OtherIo] in
  bytes_ok file /\ unfinished [97; 98] [] [97; 98]
  /\ zero_run inflate (mkSource file UnexpectedEof) new_sink = (Err (EIo OtherIo), mkSink (firstn 10 file) None)
  /\ cat_run (mkSource (firstn 10 file) UnexpectedEof) new_sink = (Err (EIo UnexpectedEof), mkSink [] None).
Proof.
  cbv zeta. split; [repeat constructor|]. split.
  - split; [reflexivity|]. split; [constructor|]. cbn [List.length]. split; [lia|]. split; [intros m H1 H2; cbn [List.length] in H2; lia|lia].
  - split; vm_compute; reflexivity.
Qed.

(** C95, proved part: if the output stops anywhere before the end of the last block, zero fails, and cat, given what was
    written, prints exactly the chunks that were written whole and fails at the end of the input. *)
Theorem C95_stopped_partial : forall (inflate : source -> byte_iter) file e header body content chunks k e', bytes_ok file ->
  discard_header (mkSource file e) = (Ok header, mkSource body e) ->
  inflate (mkSource body e) = map inl content -> bytes_ok content -> content <> [] -> chunks_of content chunks ->
  (forall c, In c chunks -> N.of_nat (List.length c) <> 65536) ->
  (k < List.length (header ++ stored_blocks chunks))%nat ->
  exists left done next rest out, zero_run inflate (mkSource file e) (sink_with (Some k)) = (Err (EIo OtherIo), left)
    /\ chunks = done ++ next :: rest
    /\ cat_run (mkSource (written left) e') new_sink = (Err (EIo e'), out)
    /\ written out = flat_map (fun c => c) done
    /\ (done = [] \/ (List.length (header ++ flat_map (stored_block false) done) <= k)%nat)
    /\ (k < List.length (header ++ flat_map (stored_block false) (done ++ [next])))%nat.
Proof. exact C95_lemma_stopped. Qed.
Print Assumptions C95_stopped_partial.

Example C95_stopped_case : let file := [31; 139; 8; 0; 0; 0; 0; 0; 0; 3] ++ [75; 76; 74; 6; 0] in
  let inflate (_ : source) : byte_iter := map inl [97; 98; 99] in
  bytes_ok file /\ chunks_of [97; 98; 99] [[97; 98; 99]] /\ (17 < List.length (firstn 10 file ++ stored_blocks [[97%N; 98%N; 99%N]]))%nat
  /\ zero_run inflate (mkSource file UnexpectedEof) (sink_with (Some 17%nat)) = (Err (EIo OtherIo), mkSink (firstn 10 file ++ [1; 3; 0; 252; 255; 97; 98]) (Some 0%nat))
  /\ cat_run (mkSource (firstn 10 file ++ [1; 3; 0; 252; 255; 97; 98]) UnexpectedEof) new_sink = (Err (EIo UnexpectedEof), mkSink [] None).
Proof. cbv zeta. split; [repeat constructor|]. split; [vm_compute; reflexivity|]. split; [cbn; lia|]. split; vm_compute; reflexivity. Qed.

(** C95 is false of the code: zero fails, and what it has written is a whole file to cat. *)
Theorem C95_refused_refuted : exists content, bytes_ok content /\ forall (inflate : source -> byte_iter) file e header body x, bytes_ok file ->
  discard_header (mkSource file e) = (Ok header, mkSource body e) -> inflate (mkSource body e) = map inl content ++ [inr x] ->
  exists left, zero_run inflate (mkSource file e) new_sink = (Err (EIo x), mkSink left None)
    /\ forall e', cat_run (mkSource left e') new_sink = (Ok tt, mkSink [] None).
Proof. exact C95_lemma_refuted. Qed.
Print Assumptions C95_refused_refuted.
