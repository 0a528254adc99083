(** Proofs of C109. *)
From Verif Require Import Base M_bit M_lib M_circles M_gzip M_parse M_serialise M_rezippers M_dump Spec Clients Clients_file Clients_zero Clients_verdict
  L_bits L_ring L_parse L_P_circ L_P_parse L_P_gzip L_rsync L_P_rez L_P_zero L_P_rsync L_P_file L_P_verdict.
From Coq Require Import ZArith ZifyBool ZifyNat ZifyN.
Ltac Zify.zify_post_hook ::= Z.div_mod_to_equations.
Local Open Scope N_scope.

Lemma stored_listing chunks : forall k, listing k (map Uncompressed chunks)
  = flat_map (fun p => [DBlock (fst p); DStored (snd p)]) (combine (seq k (List.length chunks)) (map (@List.length N) chunks)).
Proof. induction chunks as [|c cs IH]; intro k; [reflexivity|]. cbn [map listing app List.length seq combine flat_map fst snd]. now rewrite IH. Qed.

Lemma le32_ok v : bytes_ok (le32_bytes v).
Proof. unfold le32_bytes. repeat (constructor; [unfold is_byte; lia|]). constructor. Qed.

Lemma dump_chunks header chunks tail e : bytes_ok header -> gzip_header header -> chunks <> [] ->
  Forall (fun c => bytes_ok c /\ N.of_nat (List.length c) < 65536) chunks -> bytes_ok tail ->
  dump_run (mkSource (header ++ chunks_bytes chunks ++ tail) e)
  = (flat_map (fun p => [DBlock (fst p); DStored (snd p)]) (combine (seq 0 (List.length chunks)) (map (@List.length N) chunks)), Ok tt).
Proof.
  intros HH GH NE HF HT. rewrite <- stored_listing. apply (C88_lemma_dump _ e _ Complete).
  - apply Forall_app. split; [exact HH|]. apply Forall_app. split; [|exact HT]. apply chunks_bytes_ok. eapply Forall_impl; [|exact HF]. now intros c [X _].
  - apply FE_complete; [exact GH|]. now apply stream_of_chunks.
Qed.

Lemma C109_lemma : forall inflate header content file chunks, decompressor_right inflate -> bytes_ok file ->
  gzip_of header content file -> content <> [] -> chunks_of content chunks ->
  (forall c, In c chunks -> N.of_nat (List.length c) <> 65536) ->
  exists zeroed, (forall e, zero_run inflate (mkSource file e) new_sink = (Ok tt, mkSink zeroed None))
    /\ forall e, dump_run (mkSource zeroed e)
         = (flat_map (fun p => [DBlock (fst p); DStored (snd p)]) (combine (seq 0 (List.length chunks)) (map (@List.length N) chunks)), Ok tt).
Proof.
  intros inflate header content file chunks DR HB G NE EC NC.
  destruct (gzip_of_parts _ _ _ HB G) as (HH & HC & CAT & body & BB & EF & GH & ED & EI).
  eexists. split; [apply (zeroed inflate header content file chunks); auto|]. intro e.
  destruct (C48_lemma content HC) as (cs & EC' & EFl & FC & _). assert (cs = chunks) as -> by (unfold chunks_of in EC; congruence).
  assert (BC : Forall bytes_ok chunks) by (apply bytes_ok_flat; now rewrite EFl).
  apply dump_chunks; [exact HH|exact GH| | |].
  - intros ->. cbn in EFl. congruence.
  - rewrite Forall_forall in *. intros c HI. split; [auto|]. destruct (FC c HI) as (_ & L & _). assert (X := NC c HI). lia.
  - apply Forall_app. split; apply le32_ok.
Qed.

Lemma C109_lemma_last : forall inflate header content file before c, decompressor_right inflate -> bytes_ok file ->
  gzip_of header content file -> chunks_of content (before ++ [c]) ->
  (forall x, In x before -> N.of_nat (List.length x) <> 65536) -> N.of_nat (List.length c) = 65536 ->
  exists zeroed, (forall e, zero_run inflate (mkSource file e) new_sink = (Ok tt, mkSink zeroed None))
    /\ forall e, dump_run (mkSource zeroed e)
         = (flat_map (fun p => [DBlock (fst p); DStored (snd p)]) (combine (seq 0 (S (List.length before))) (map (@List.length N) before ++ [0%nat])), Ok tt).
Proof.
  intros inflate header content file before c DR HB G EC NC LC.
  destruct (gzip_of_parts _ _ _ HB G) as (HH & HC & CAT & body & BB & EF & GH & ED & EI).
  destruct (C48_lemma content HC) as (cs & EC' & EFl & FC & _). assert (cs = before ++ [c]) as -> by (unfold chunks_of in EC; congruence).
  assert (NE : content <> []). { intros ->. rewrite flat_map_app in EFl. apply app_eq_nil in EFl. destruct EFl as [_ X]. cbn [flat_map] in X. rewrite app_nil_r in X. subst c. discriminate LC. }
  eexists. split; [apply (zeroed inflate header content file (before ++ [c])); auto|]. intro e.
  assert (BC : Forall bytes_ok (before ++ [c])) by (apply bytes_ok_flat; now rewrite EFl). apply Forall_app in BC. destruct BC as [BB1 BC]. apply Forall_inv in BC.
  rewrite chunks_bytes_full by exact LC. rewrite <- app_assoc.
  assert (DC := fun tail => dump_chunks header (before ++ [[]]) tail e HH GH). rewrite app_length, map_app in DC. cbn [List.length map] in DC.
  replace (List.length before + 1)%nat with (S (List.length before)) in DC by lia. apply DC.
  - destruct before; discriminate.
  - apply Forall_app. split; [|repeat constructor; discriminate]. rewrite Forall_forall in *. intros x HI. split; [auto|].
    destruct (FC x ltac:(apply in_or_app; now left)) as (_ & L & _). assert (X := NC x HI). lia.
  - apply Forall_app. split; [exact BC|]. apply Forall_app. split; apply le32_ok.
Qed.

Lemma C109_lemma_same : forall inflate header content file chunks header' content' file' chunks' e, decompressor_right inflate ->
  bytes_ok file -> bytes_ok file' -> gzip_of header content file -> gzip_of header' content' file' -> content <> [] -> content' <> [] ->
  chunks_of content chunks -> chunks_of content' chunks' ->
  (forall c, In c chunks -> N.of_nat (List.length c) <> 65536) -> (forall c, In c chunks' -> N.of_nat (List.length c) <> 65536) ->
  exists z z', zero_run inflate (mkSource file e) new_sink = (Ok tt, mkSink z None) /\ zero_run inflate (mkSource file' e) new_sink = (Ok tt, mkSink z' None)
    /\ (dump_run (mkSource z e) = dump_run (mkSource z' e) <-> map (@List.length N) chunks = map (@List.length N) chunks').
Proof.
  intros inflate h content file chunks h' content' file' chunks' e DR HB HB' G G' NE NE' EC EC' NC NC'.
  destruct (C109_lemma _ _ _ _ _ DR HB G NE EC NC) as (z & Z & D). destruct (C109_lemma _ _ _ _ _ DR HB' G' NE' EC' NC') as (z' & Z' & D').
  exists z, z'. split; [apply Z|]. split; [apply Z'|]. rewrite D, D'. split.
  - intro E. injection E as E. rewrite <- !stored_listing in E. apply C57_lemma_complete in E. clear - E. revert chunks' E.
    induction chunks as [|c cs IH]; intros [|d ds] E; cbn [map outline_of] in *; try discriminate; [reflexivity|]. injection E as E1 E2. rewrite E1. f_equal. now apply IH.
  - intro E. assert (L : List.length chunks = List.length chunks') by (rewrite <- (map_length (@List.length N) chunks), E; apply map_length). now rewrite E, L.
Qed.
