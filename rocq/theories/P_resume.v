(** Property C106: the window is all that decompression needs to go on (lib/src/circles.rs, lib/src/serialise.rs). *)
From Verif Require Import Base M_bit M_lib M_circles M_parse M_serialise Spec Clients L_P_circ L_P_resume.
Local Open Scope N_scope.
Local Open Scope model_scope.

(** C106: two windows give the same results for all blocks and writers exactly when the last bytes pushed, as many as the capacity, are the same. *)
Theorem C106_window_decides : forall cap hist hist' b b', cap < 65536 -> window_after cap hist b -> window_after cap hist' b' ->
  (lastn (N.to_nat cap) hist = lastn (N.to_nat cap) hist'
   <-> forall blocks out,
         fst (decompress_blocks blocks (b, out)) = fst (decompress_blocks blocks (b', out))
         /\ snd (snd (decompress_blocks blocks (b, out))) = snd (snd (decompress_blocks blocks (b', out)))).
Proof. exact C106_lemma_window. Qed.
Print Assumptions C106_window_decides.

(** Different histories with the same last four bytes, and with other ones. *)
Example C106_case : exists b b' b'', window_after 4 [1; 2; 3; 4; 5; 6] b /\ window_after 4 [9; 3; 4; 5; 6] b' /\ window_after 4 [8; 4; 5; 6] b''
  /\ lastn 4 [1; 2; 3; 4; 5; 6] = lastn 4 [9; 3; 4; 5; 6]
  /\ snd (snd (decompress_blocks [FixedHuffman [Reference (mkRef 4 1)]] (b, new_sink))) = mkSink [3; 4; 5; 6] None
  /\ snd (snd (decompress_blocks [FixedHuffman [Reference (mkRef 4 1)]] (b', new_sink))) = mkSink [3; 4; 5; 6] None
  /\ snd (snd (decompress_blocks [FixedHuffman [Reference (mkRef 4 1)]] (b'', new_sink))) = mkSink [8; 4; 5; 6] None.
Proof.
  do 3 eexists.
  split; [eexists; exists [CExtend [1; 2; 3; 4; 5; 6]]; split; [vm_compute; reflexivity|split; [vm_compute; reflexivity|reflexivity]]|].
  split; [eexists; exists [CExtend [9; 3; 4; 5; 6]]; split; [vm_compute; reflexivity|split; [vm_compute; reflexivity|reflexivity]]|].
  split; [eexists; exists [CExtend [8; 4; 5; 6]]; split; [vm_compute; reflexivity|split; [vm_compute; reflexivity|reflexivity]]|].
  split; [reflexivity|]. split; [vm_compute; reflexivity|]. split; vm_compute; reflexivity.
Qed.

(** C106: a new window filled from a snapshot goes on as the old one would have.  (At capacity 65535 there is no snapshot of a full window, C25.) *)
Theorem C106_snapshot : forall cap hist b debug, 0 < cap < 65535 -> window_after cap hist b ->
  exists snapshot b0 b1, cb_vec debug b = Ok snapshot /\ cb_with_capacity cap = Ok b0 /\ cb_extend b0 snapshot = Ok b1
    /\ forall blocks out,
         fst (decompress_blocks blocks (b1, out)) = fst (decompress_blocks blocks (b, out))
         /\ snd (snd (decompress_blocks blocks (b1, out))) = snd (snd (decompress_blocks blocks (b, out))).
Proof. exact C106_lemma_resume. Qed.
Print Assumptions C106_snapshot.

(** C106: decompression can stop after any block and go on later from a snapshot of at most 32768 bytes. *)
Theorem C106_stop_and_go_on : forall blocks more data, encodes [] data (flat_map block_codes (blocks ++ more)) ->
  exists before after fresh b snapshot b1 b2, data = before ++ after /\ cb_new = Ok fresh
    /\ decompress_blocks blocks (fresh, new_sink) = (Ok tt, (b, mkSink before None))
    /\ cb_vec true b = Ok snapshot /\ (List.length snapshot <= N.to_nat 32768)%nat
    /\ cb_extend fresh snapshot = Ok b1
    /\ decompress_blocks more (b1, new_sink) = (Ok tt, (b2, mkSink after None)).
Proof. exact C106_lemma_stream. Qed.
Print Assumptions C106_stop_and_go_on.

Example C106_stream_case : let blocks := [Uncompressed [1; 2; 3]] in let more := [FixedHuffman [Reference (mkRef 2 2); Literal 7]; Uncompressed [8]] in
  encodes [] [1; 2; 3; 2; 3; 2; 3; 2; 7; 8] (flat_map block_codes (blocks ++ more)).
Proof. reflexivity. Qed.
