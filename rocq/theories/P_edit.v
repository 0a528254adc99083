(** Property C104: an edit changes little of what zero writes (rezippers/src/zero.rs). *)
From Verif Require Import Base M_bit M_lib M_circles M_gzip M_parse M_serialise M_rezippers Spec Clients Clients_zero
  L_P_parse L_P_zero L_P_rsync L_P_edit.
Local Open Scope N_scope.

(** C104: two files whose contents begin alike, however each was compressed: what zero writes begins alike too, behind the headers, but for the
    last 65536 bytes of what the contents have in common. *)
Theorem C104_before : forall inflate header header' start rest rest' file file',
  decompressor_right inflate -> bytes_ok file -> bytes_ok file' ->
  gzip_of header (start ++ rest) file -> gzip_of header' (start ++ rest') file' -> start ++ rest <> [] -> start ++ rest' <> [] ->
  exists same other other',
    (forall e, zero_run inflate (mkSource file e) new_sink = (Ok tt, mkSink (header ++ same ++ other) None))
    /\ (forall e, zero_run inflate (mkSource file' e) new_sink = (Ok tt, mkSink (header' ++ same ++ other') None))
    /\ N.of_nat (List.length start) <= N.of_nat (List.length same) + 65536.
Proof. exact C104_lemma_before. Qed.
Print Assumptions C104_before.

Example C104_before_case :
  let header := [31; 139; 8; 0; 0; 0; 0; 0; 0; 3] in let start := repeat 0 (N.to_nat 8192) in
  gzip_of header (start ++ [7; 8]) (header ++ stored_blocks [start ++ [7; 8]]) /\ gzip_of header (start ++ [9]) (header ++ stored_blocks [start; [9]])
  /\ start ++ [7; 8] <> [] /\ start ++ [9] <> [] /\ decompressor_right own_inflate.
Proof.
  cbv zeta. set (header := [31; 139; 8; 0; 0; 0; 0; 0; 0; 3]). set (start := repeat 0 (N.to_nat 8192)).
  assert (GH : gzip_header header) by (exists 0, [0; 0; 0; 0; 0; 3], [], [], [], []; repeat split).
  assert (LS : List.length start = N.to_nat 8192) by apply repeat_length.
  assert (BS : bytes_ok start) by (apply Forall_forall; intros y H; apply repeat_spec in H; subst; reflexivity).
  assert (NS : start <> []) by (intro X; rewrite X in LS; cbn [List.length] in LS; Lia.lia). clearbody start.
  split; [|split].
  - replace (start ++ [7; 8]) with (flat_map (fun c : list N => c) [start ++ [7; 8]]) at 1 by (cbn [flat_map]; apply app_nil_r).
    apply pieces_gzip; [exact GH|discriminate|]. constructor; [split; [apply Forall_app; split; [exact BS|repeat constructor]|]|constructor]. rewrite app_length, LS. cbn [List.length]. Lia.lia.
  - replace (start ++ [9]) with (flat_map (fun c : list N => c) [start; [9]]) by reflexivity.
    apply pieces_gzip; [exact GH|discriminate|]. constructor; [split; [exact BS|rewrite LS; Lia.lia]|]. constructor; [split; [repeat constructor|reflexivity]|constructor].
  - split; [intro X; apply app_eq_nil in X; destruct X; congruence|]. split; [intro X; apply app_eq_nil in X; destruct X; congruence|]. exact own_inflate_right.
Qed.

(** C104: two files whose contents end alike: let there be a place, 16384 bytes or more into what they have in common, where the last 8192 bytes sum
    to a multiple of 4096, and no such place among the 8191 before it.  From there on what zero writes is the same, up to the eight bytes of the trailer. *)
Theorem C104_after : forall inflate header header' start start' rest file file' p,
  decompressor_right inflate -> bytes_ok file -> bytes_ok file' ->
  gzip_of header (start ++ rest) file -> gzip_of header' (start' ++ rest) file' ->
  16384 <= N.of_nat p -> (p < List.length rest)%nat -> rsync_stop (firstn p rest) ->
  (forall q, (p < q + N.to_nat 8192)%nat -> (q < p)%nat -> ~ rsync_stop (firstn q rest)) ->
  (forall chunks, chunks_of (start ++ rest) chunks \/ chunks_of (start' ++ rest) chunks -> Forall (fun c => N.of_nat (List.length c) <> 65536) chunks) ->
  exists other other' same trailer trailer',
    (forall e, zero_run inflate (mkSource file e) new_sink = (Ok tt, mkSink (header ++ other ++ same ++ trailer) None))
    /\ (forall e, zero_run inflate (mkSource file' e) new_sink = (Ok tt, mkSink (header' ++ other' ++ same ++ trailer') None))
    /\ List.length trailer = 8%nat /\ List.length trailer' = 8%nat /\ (List.length rest - p <= List.length same)%nat.
Proof. exact C104_lemma_after. Qed.
Print Assumptions C104_after.

Example C104_after_case :
  let header := [31; 139; 8; 0; 0; 0; 0; 0; 0; 3] in
  gzip_of header ([7] ++ marked) (header ++ stored_blocks [[7] ++ marked]) /\ gzip_of header ([8; 9] ++ marked) (header ++ stored_blocks [[8; 9] ++ marked])
  /\ (N.to_nat 16384 < List.length marked)%nat /\ rsync_stop (firstn (N.to_nat 16384) marked)
  /\ (forall q, (N.to_nat 16384 < q + N.to_nat 8192)%nat -> (q < N.to_nat 16384)%nat -> ~ rsync_stop (firstn q marked))
  /\ (forall chunks, chunks_of ([7] ++ marked) chunks \/ chunks_of ([8; 9] ++ marked) chunks -> Forall (fun c => N.of_nat (List.length c) <> 65536) chunks).
Proof.
  cbv zeta. set (header := [31; 139; 8; 0; 0; 0; 0; 0; 0; 3]).
  assert (GH : gzip_header header) by (exists 0, [0; 0; 0; 0; 0; 3], [], [], [], []; repeat split).
  assert (LM := marked_length). assert (BM := marked_bytes). assert (SM := marked_stop). assert (GM := marked_go). assert (CM := small_chunks).
  generalize dependent marked. intros m LM BM SM GM. assert (B1 : bytes_ok ([7] ++ m)) by (apply Forall_app; split; [repeat constructor|exact BM]).
  assert (B2 : bytes_ok ([8; 9] ++ m)) by (apply Forall_app; split; [repeat constructor|exact BM]).
  assert (L1 : N.of_nat (List.length ([7] ++ m)) < 65536) by (rewrite app_length, LM; cbn [List.length]; Lia.lia).
  assert (L2 : N.of_nat (List.length ([8; 9] ++ m)) < 65536) by (rewrite app_length, LM; cbn [List.length]; Lia.lia).
  split; [|split].
  - replace ([7] ++ m) with (flat_map (fun c : list N => c) [[7] ++ m]) at 1 by (cbn [flat_map]; apply app_nil_r). apply pieces_gzip; [exact GH|discriminate|]. constructor; [split; assumption|constructor].
  - replace ([8; 9] ++ m) with (flat_map (fun c : list N => c) [[8; 9] ++ m]) at 1 by (cbn [flat_map]; apply app_nil_r). apply pieces_gzip; [exact GH|discriminate|]. constructor; [split; assumption|constructor].
  - split; [Lia.lia|]. split; [exact SM|]. split; [exact GM|]. intros chunks [E|E]; [exact (CM _ _ B1 L1 E)|exact (CM _ _ B2 L2 E)].
Qed.
