(** Proofs of C47. *)
From Verif Require Import Base M_bit M_lib M_circles M_gzip M_parse M_serialise M_rezippers Spec Clients
  L_bits L_ring L_parse L_P_circ L_P_parse L_P_gzip.
From Coq Require Import ZArith ZifyBool ZifyNat ZifyN.
Ltac Zify.zify_post_hook ::= Z.div_mod_to_equations.
Local Open Scope N_scope.
Local Open Scope model_scope.

Definition some_block (b : Block) : outcome (option Block) := Ok (Some b).

Lemma cat_follows fuel : forall it,
  match bi_drain fuel it with
  | (Ok blocks, _) => fst (call_next (List.length blocks) it) = map some_block blocks
       /\ forall st, cat_loop fuel it st = decompress_blocks blocks st
  | (Err e, _) => exists blocks, fst (call_next (S (List.length blocks)) it) = map some_block blocks ++ [Err e]
       /\ forall st, cat_loop fuel it st = (decompress_blocks blocks ;;; lift (Err e)) st
  | _ => True
  end.
Proof.
  induction fuel as [|fuel IH]; intro it; cbn [bi_drain cat_loop]; [exact I|]. unfold bind at 1.
  destruct (bi_next it) as [[[b|]|e|m|] it'] eqn:E; try exact I.
  - unfold bind at 1. specialize (IH it'). destruct (bi_drain fuel it') as [[blocks|e|m|] it2]; try exact I; cbn [ret].
    + destruct IH as [IH1 IH2]. cbn [List.length call_next]. rewrite E. destruct (call_next (List.length blocks) it') as [os i2]. cbn [fst map] in *. rewrite IH1.
      split; [reflexivity|]. intro st. cbn [decompress_blocks]. unfold bind. destruct (decompressed_block b st) as [[]]; auto.
    + destruct IH as (blocks & IH1 & IH2). exists (b :: blocks). split.
      * cbn [List.length call_next map app]. rewrite E. cbn [call_next] in IH1. destruct (bi_next it') as [o3 i3]. destruct (call_next (List.length blocks) i3) as [os i4].
        cbn [fst] in *. rewrite IH1. reflexivity.
      * intro st. cbn [decompress_blocks]. unfold bind in *. destruct (decompressed_block b st) as [[]]; auto.
  - cbn [ret List.length call_next map decompress_blocks]. auto.
  - exists []. cbn [List.length call_next map app decompress_blocks]. rewrite E. auto.
Qed.

(** What [cat_run] does after the header. *)
Lemma cat_run_body file e h body out : discard_header (mkSource file e) = (Ok h, mkSource body e) ->
  exists d, ring 32768 [] d /\ cat_run (mkSource file e) out =
    (let '(o, (_, out)) := cat_loop (8 * List.length body + 2) (parse_deflate (mkSource body e)) (d, out) in (o, out)).
Proof.
  intro E. unfold cat_run. rewrite E. destruct (ring_new 32768 ltac:(lia)) as (d & E0 & R0). exists d. split; [exact R0|].
  unfold cb_new. change (cb_with_capacity 32768) with (cb_with_capacity (32 * 1024)) in E0. rewrite E0. reflexivity.
Qed.

Lemma write_all_free data : write_all data new_sink = (Ok tt, mkSink data None).
Proof. reflexivity. Qed.

Lemma room_written data r : written (snd (write_all data (sink_with r))) = match r with None => data | Some k => firstn k data end
  /\ (fst (write_all data (sink_with r)) = Ok tt
      \/ fst (write_all data (sink_with r)) = Err (EIo OtherIo) /\ exists k, r = Some k /\ (k < List.length data)%nat).
Proof.
  unfold write_all, sink_with. destruct r as [k|]; cbn [room written app]; [|auto].
  destruct (Nat.leb_spec (List.length data) k); cbn [fst snd written].
  - split; [now rewrite firstn_all2|auto].
  - split; [reflexivity|]. right. eauto.
Qed.

Lemma C47_lemma : forall file e data, bytes_ok file ->
  cat_run (mkSource file e) new_sink = (Ok tt, mkSink data None)
  <-> exists header used tail blocks, file = header ++ used ++ tail
        /\ gzip_header header
        /\ stream_bits 0 blocks (bits_of_bytes used)
        /\ encodes [] data (flat_map block_codes blocks).
Proof.
  intros file e data HB. split.
  - intro EC. destruct (discard_header (mkSource file e)) as [[h| | |] s] eqn:EH;
      try (unfold cat_run in EC; rewrite EH in EC; discriminate).
    destruct (C30_lemma _ _ _ _ EH) as (body & -> & EF & _).
    assert (EH' := EH). apply C31_lemma in EH'; [|assumption]. destruct EH' as [_ GH].
    assert (HBB : bytes_ok body) by (rewrite EF in HB; apply Forall_app in HB; apply HB).
    destruct (cat_run_body file e h body new_sink EH) as (d & R & ER). rewrite EC in ER. clear EC.
    assert (CF := cat_follows (8 * List.length body + 2) (parse_deflate (mkSource body e))).
    assert (T := parse_all_total body e HBB). assert (PW := parse_all_wf body e).
    unfold parse_all in T, PW. cbn [rest] in T, PW. destruct (bi_drain _ _) as [[blocks|er|m|] it]; cbn [fst returns] in T; try tauto.
    + destruct CF as [_ CF]. rewrite CF in ER. destruct (PW _ _ HBB eq_refl) as (_ & used & tail & EB & SB & _).
      exists h, used, tail, blocks. split; [now rewrite EF, EB|]. split; [exact GH|]. split; [exact SB|].
      unfold encodes. destruct (lz_decode 32768 [] (flat_map block_codes blocks)) as [hh|] eqn:EL.
      * destruct (blocks_emit 32768 blocks [] hh EL d new_sink R) as (b' & X & _). rewrite X in ER. cbn [write_all room new_sink fst snd written app] in ER.
        injection ER as ->. reflexivity.
      * destruct (lz_decode_none _ _ _ EL) as (good & r & more & dd & EC & EG & B).
        destruct (blocks_fail _ _ _ _ _ _ _ EC EG B d new_sink R) as (b' & X). rewrite X in ER. discriminate.
    + destruct CF as (blocks & _ & CF). rewrite CF in ER. unfold bind in ER. destruct (decompress_blocks blocks (d, new_sink)) as [[] [d' o']]; cbn in ER; discriminate.
  - intros (h & used & tail & blocks & EF & GH & SB & EN).
    assert (EH : discard_header (mkSource file e) = (Ok h, mkSource (used ++ tail) e)) by (apply C31_lemma; auto).
    assert (HBB : bytes_ok (used ++ tail)) by (rewrite EF in HB; apply Forall_app in HB; apply HB).
    destruct (cat_run_body file e h _ new_sink EH) as (d & R & ER). rewrite ER.
    destruct (proj2 (parse_all_iff (used ++ tail) e blocks tail HBB)) as (it & EP & _); [eauto|].
    assert (CF := cat_follows (8 * List.length (used ++ tail) + 2) (parse_deflate (mkSource (used ++ tail) e))).
    unfold parse_all in EP. cbn [rest] in EP. rewrite EP in CF. destruct CF as [_ CF]. rewrite CF.
    destruct (blocks_emit 32768 blocks [] data EN d new_sink R) as (b' & X & _). rewrite X. reflexivity.
Qed.

Lemma C47_lemma_failure : forall file e room o out, bytes_ok file ->
  cat_run (mkSource file e) (sink_with room) = (o, out) -> o <> Ok tt ->
  exists er, o = Err er
  /\ ((exists s, discard_header (mkSource file e) = (Err er, s)) /\ written out = []
      \/ exists header body blocks good more data,
          discard_header (mkSource file e) = (Ok header, mkSource body e)
          /\ fst (call_next (List.length blocks) (parse_deflate (mkSource body e))) = map (fun b => Ok (Some b)) blocks
          /\ flat_map block_codes blocks = good ++ more
          /\ encodes [] data good
          /\ written out = match room with None => data | Some k => firstn k data end
          /\ ((exists k, room = Some k /\ (k < List.length data)%nat /\ er = EIo OtherIo)
              \/ (more = [] /\ In (Err er) (fst (call_next (S (List.length blocks)) (parse_deflate (mkSource body e)))))
              \/ exists r more', more = Reference r :: more'
                   /\ ~ (1 <= r_dist r <= N.min 32768 (N.of_nat (List.length data))))).
Proof.
  intros file e room o out HB EC HO. destruct (discard_header (mkSource file e)) as [[h|er|m|] s] eqn:EH.
  - destruct (C30_lemma _ _ _ _ EH) as (body & -> & EF & _).
    assert (HBB : bytes_ok body) by (rewrite EF in HB; apply Forall_app in HB; apply HB).
    destruct (cat_run_body file e h body (sink_with room) EH) as (d & R & ER). rewrite EC in ER. clear EC.
    assert (CF := cat_follows (8 * List.length body + 2) (parse_deflate (mkSource body e))).
    assert (T := parse_all_total body e HBB). unfold parse_all in T. cbn [rest] in T.
    assert (F : exists blocks last, (exists fin, fst (call_next (List.length blocks) (parse_deflate (mkSource body e))) = map some_block blocks
        /\ (last = Ok tt -> fin = Ok tt) /\ (forall er, last = Err er -> In (Err er) (fst (call_next (S (List.length blocks)) (parse_deflate (mkSource body e))))))
        /\ (last = Ok tt \/ exists er, last = Err er)
        /\ forall st, cat_loop (8 * List.length body + 2) (parse_deflate (mkSource body e)) st = (decompress_blocks blocks ;;; lift last) st).
    { destruct (bi_drain _ _) as [[blocks|er|m|] it]; cbn [fst returns] in T; try tauto.
      - destruct CF as [C1 C2]. exists blocks, (Ok tt). split; [exists (Ok tt); split; [exact C1|]; split; [auto|discriminate]|]. split; [now left|].
        intro st. rewrite C2. unfold bind. destruct (decompress_blocks blocks st) as [[[]| | |] st']; reflexivity.
      - destruct CF as (blocks & C1 & C2). exists blocks, (Err er). split; [|split; [eauto|exact C2]].
        exists (Ok tt). split; [|split; [auto|]].
        + revert C1. generalize (parse_deflate (mkSource body e)). clear. induction blocks as [|b blocks IH]; intros it C1; [reflexivity|].
          cbn [List.length map call_next] in *. destruct (bi_next it) as [o1 i1]. specialize (IH i1). cbn [call_next] in IH.
          destruct (bi_next i1) as [o2 i2]. destruct (call_next (List.length blocks) i2) as [os2 i3]. cbn [fst] in *.
          injection C1 as -> C1. destruct (call_next (List.length blocks) i1) as [os1 i4]. cbn [fst] in *. rewrite IH; auto.
        + intros er' EE. injection EE as <-. rewrite C1. apply in_or_app. right. now left. }
    destruct F as (blocks & last & (_ & F1 & _ & F2) & HL & F3). rewrite F3 in ER. clear F3 CF.
    destruct (lz_decode 32768 [] (flat_map block_codes blocks)) as [hh|] eqn:EL.
    + destruct (blocks_emit 32768 blocks [] hh EL d (sink_with room) R) as (b' & X & _). unfold bind in ER. rewrite X in ER.
      destruct (room_written hh room) as [RW RO]. destruct (write_all hh (sink_with room)) as [ow sw]. cbn [fst snd] in *.
      destruct RO as [->|[-> (k & EK & KL)]].
      * cbn [lift] in ER. injection ER as -> ->. destruct HL as [->|(er & ->)]; [tauto|]. exists er. split; [reflexivity|]. right.
        exists h, body, blocks, (flat_map block_codes blocks), [], hh. split; [reflexivity|]. split; [exact F1|]. split; [now rewrite app_nil_r|].
        split; [exact EL|]. split; [exact RW|]. right. left. auto.
      * injection ER as -> ->. exists (EIo OtherIo). split; [reflexivity|]. right.
        exists h, body, blocks, (flat_map block_codes blocks), [], hh. split; [reflexivity|]. split; [exact F1|]. split; [now rewrite app_nil_r|].
        split; [exact EL|]. split; [exact RW|]. left. eauto.
    + destruct (lz_decode_none _ _ _ EL) as (good & r & more & dd & EC & EG & B).
      destruct (blocks_fail _ _ _ _ _ _ _ EC EG B d (sink_with room) R) as (b' & X). unfold bind in ER. rewrite X in ER.
      destruct (room_written dd room) as [RW RO]. destruct (write_all dd (sink_with room)) as [ow sw]. cbn [fst snd] in *.
      destruct RO as [->|[-> (k & EK & KL)]].
      * injection ER as -> ->. eexists. split; [reflexivity|]. right.
        exists h, body, blocks, good, (Reference r :: more), dd. split; [reflexivity|]. split; [exact F1|]. split; [exact EC|].
        split; [exact EG|]. split; [exact RW|]. right. right. exists r, more. split; [reflexivity|exact B].
      * injection ER as -> ->. exists (EIo OtherIo). split; [reflexivity|]. right.
        exists h, body, blocks, good, (Reference r :: more), dd. split; [reflexivity|]. split; [exact F1|]. split; [exact EC|].
        split; [exact EG|]. split; [exact RW|]. left. eauto.
  - unfold cat_run in EC. rewrite EH in EC. injection EC as <- <-. exists er. split; [reflexivity|]. left. split; [eauto|reflexivity].
  - assert (T := C31_lemma_total file e). rewrite EH in T. destruct T.
  - assert (T := C31_lemma_total file e). rewrite EH in T. destruct T.
Qed.
