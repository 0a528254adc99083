(** Proofs of C92: what reading and writing a file again does to it. *)
From Verif Require Import Base M_bit M_lib M_code_tree M_huffman M_circles M_gzip M_parse M_serialise M_rezippers M_dump Spec Clients Clients_file Clients_wrong Clients_verdict Clients_rewrite
  L_bits L_header L_writer L_reader L_stored L_tree L_huff L_parse L_ser L_P_parse L_P_ser2 L_P_gzip L_P_rez L_P_file L_P_verdict.
From Coq Require Import ZArith ZifyBool ZifyNat ZifyN.
Ltac Zify.zify_post_hook ::= Z.div_mod_to_equations.
Local Open Scope N_scope.
Local Open Scope model_scope.

(** ** Blocks that were read can be written, unless they lack the code *)
Lemma canonical_expressible ll dl c w : canonical_code ll dl c w -> code_ok c -> expressible ll dl c.
Proof.
  intros [HC H258] OK. destruct HC as [b w HB HC|r lsym lx le lw dsym dx de dw TL CL TD CD]; cbn.
  - split; [exact HB|congruence].
  - split; [exact OK|]. split; [|exists dsym, dx, de; split; [exact TD|congruence]].
    destruct (N.eq_dec (ref_len r) 258) as [E|NE].
    + destruct (H258 E) as (lw' & t & CL' & _). exists 285, 0, 0. rewrite E. split; [|split; [reflexivity|congruence]].
      exists 258. split; [|split; [reflexivity|reflexivity]]. vm_compute. tauto.
    + exists lsym, lx, le. split; [exact TL|]. split; [intro; contradiction|congruence].
Qed.

Lemma canonical_body_expressible ll dl cs w : canonical_body ll dl cs w -> Forall code_ok cs -> rfc_code ll 256 <> None /\ Forall (expressible ll dl) cs.
Proof.
  induction 1 as [w E|c cs w ws HC HB IH]; intro OK; [split; [congruence|constructor]|].
  inversion OK as [|? ? OC OS]; subst. destruct (IH OS) as [E F]. split; [exact E|]. constructor; [eapply canonical_expressible; eassumption|exact F].
Qed.

Lemma block_again off b w : block_bits off b w -> block_wf b -> block_ok b \/ (panics (compressed_block b) /\ lacks_longest b).
Proof.
  intros BB WF. assert (H := block_written _ _ _ BB WF). destruct BB as [data k HL OD HP|cs w HB|ll dl hdr cs w HD HB].
  - left. exact WF.
  - left. exact WF.
  - destruct H as [_|H]; [|right; exact H]. destruct (dyn_tables _ _ _ HD) as (lt & dt & ER & TL & LL & TD).
    destruct (body_written ll dl lt dt cs w TL LL TD HB WF) as [(w' & CB & _)|[P X]].
    + left. destruct (canonical_body_expressible _ _ _ _ CB WF) as [E F]. exists ll, dl, hdr. auto.
    + right. split.
      * cbn [compressed_block]. eapply panics_bind_r; [intro out; apply (writes_bits_val out 2 2); lia|].
        eapply panics_bind_r; [intro out; apply writes_vec|]. eapply panics_lift; [exact ER|]. exact P.
      * destruct X as (r & X1 & X2 & X3). exists ll, dl, hdr, cs, r. auto.
Qed.

Lemma stream_again off bs w : stream_bits off bs w -> Forall block_wf bs ->
  Forall block_ok bs \/ (panics (compress_blocks bs) /\ Exists lacks_longest bs).
Proof.
  induction 1 as [off b w k HB HP|off b bs w ws HN HB HS IH]; intro WF; inversion WF as [|? ? WF1 WF2]; subst.
  - destruct (block_again _ _ _ HB WF1) as [HO|[P HL]]; [left; now constructor|]. right. split; [|now constructor].
    cbn [compress_blocks]. eapply panics_bind_r; [intro out; apply writes_bit|]. apply panics_bind_l. exact P.
  - destruct bs as [|b1 bs]; [contradiction|]. destruct (block_again _ _ _ HB WF1) as [HO|[P HL]].
    + destruct (IH WF2) as [HOS|[P HL]]; [left; now constructor|]. right. split; [|now constructor 2].
      intros out st HW. cbn [compress_blocks]. destruct (writes_bit out false st HW) as (s1 & E1 & W1).
      destruct (block_ok_writes b (List.length (out ++ [false])) HO) as (_ & w' & WW). destruct (WW _ eq_refl _ W1) as (s2 & E2 & W2).
      destruct (P _ _ W2) as (msg & s3 & E3). exists msg, s3. unfold bind. rewrite E1, E2. exact E3.
    + right. split; [|now constructor]. cbn [compress_blocks]. eapply panics_bind_r; [intro out; apply writes_bit|]. apply panics_bind_l. exact P.
Qed.

(** The tables of a header are determined by it, so that a block cannot both be writable and lack the code. *)
Lemma ok_lacks_panic b : block_ok b -> lacks_longest b -> False.
Proof.
  intros HO (ll & dl & hdr & cs & r & -> & HD & HI & H258 & HN). destruct HO as (ll' & dl' & hdr' & EV & HD' & _ & F).
  apply bitvec_of_inj in EV. subst hdr'. rewrite Forall_forall in F. apply F in HI. destruct HI as (_ & (s & n & v & _ & E & NE) & _). rewrite (E H258) in NE.
  destruct (dyn_tables _ _ _ HD) as (lt & dt & ER & TL & LL & _). destruct (dyn_tables _ _ _ HD') as (lt' & dt' & ER' & TL' & LL' & _).
  rewrite ER in ER'. injection ER' as <- <-. destruct (tree_invert_spec ll lt (proj1 TL) LL) as (inv & I1 & _ & I2).
  destruct (tree_invert_spec ll' lt (proj1 TL') LL') as (inv' & I1' & _ & I2'). rewrite I1 in I1'. injection I1' as <-.
  specialize (I2 285 ltac:(lia)). specialize (I2' 285 ltac:(lia)). rewrite I2, HN in I2'. destruct (rfc_code ll' 285); [discriminate I2'|contradiction].
Qed.

(** ** What is read from what was written *)
Lemma wst_unique o1 o2 st : wst o1 st -> wst o2 st -> o1 = o2.
Proof.
  intros (_ & p1 & _ & C1 & L1 & ->) (_ & p2 & _ & C2 & L2 & ->). f_equal.
  rewrite C1 in C2. unfold bitvec_of in C2. injection C2 as EP EL.
  destruct p1 as [|a p1], p2 as [|b p2]; try discriminate; [reflexivity|].
  rewrite !pack_short in EP by (try discriminate; lia). injection EP as EP. apply lsb_value_inj; [exact EL|exact EP].
Qed.

Lemma stream_prefix off bs w : stream_bits off bs w -> Forall block_wf bs ->
  forall out st st' v t t', (List.length out = off)%nat -> wst out st -> compress_blocks bs st = (Ok tt, st') ->
    wst (out ++ v) st' -> w ++ t = v ++ t' -> canonical_stream off bs w.
Proof.
  induction 1 as [off b w k HB HP | off b bs w ws HN HB HS IH]; intros WF out st st' v t t' HO HW E HE EV;
    inversion WF as [|? ? WF1 WF2]; subst; cbn [compress_blocks] in E.
  - destruct (writes_bit out true st HW) as (s1 & E1 & W1).
    apply bind_inv in E. destruct E as ([] & s1' & E1' & E). rewrite E1 in E1'. injection E1' as <-.
    apply bind_inv in E. destruct E as ([] & s2 & E2 & E).
    destruct (block_written _ _ _ HB WF1) as [(w' & WW & U)|[P _]].
    2:{ destruct (P _ _ W1) as (msg & x & EP). congruence. }
    destruct (WW (out ++ [true]) ltac:(rewrite app_length; reflexivity) _ W1) as (s2' & E2' & W2).
    rewrite E2 in E2'. injection E2' as <-.
    destruct (pads_exists (List.length ((out ++ [true]) ++ w'))) as (k' & HP').
    destruct (writes_align _ _ HP' _ W2) as (s3 & E3 & W3). rewrite E in E3. injection E3 as <-.
    assert (EO := wst_unique _ _ _ HE W3). rewrite <- !app_assoc in EO. apply app_inv_head in EO. cbn [app] in EO. subst v.
    cbn [app] in EV. injection EV as EV. rewrite <- !app_assoc in EV. destruct (U _ _ EV) as [-> CB]. now constructor.
  - destruct bs as [|b1 bs]; [contradiction|].
    destruct (writes_bit out false st HW) as (s1 & E1 & W1).
    apply bind_inv in E. destruct E as ([] & s1' & E1' & E). rewrite E1 in E1'. injection E1' as <-.
    apply bind_inv in E. destruct E as ([] & s2 & E2 & E).
    destruct (block_written _ _ _ HB WF1) as [(w' & WW & U)|[P _]].
    2:{ destruct (P _ _ W1) as (msg & x & EP). congruence. }
    destruct (WW (out ++ [false]) ltac:(rewrite app_length; reflexivity) _ W1) as (s2' & E2' & W2).
    rewrite E2 in E2'. injection E2' as <-.
    destruct (compress_blocks_grows (b1 :: bs) s2 st' _ W2 WF2 _ _ HS E) as (x & WX).
    assert (EO := wst_unique _ _ _ HE WX). rewrite <- !app_assoc in EO. apply app_inv_head in EO. cbn [app] in EO. subst v.
    cbn [app] in EV. injection EV as EV. rewrite <- !app_assoc in EV. destruct (U _ _ EV) as [-> CB]. apply app_inv_head in EV.
    constructor; [discriminate|exact CB|]. apply (IH WF2 ((out ++ [false]) ++ w') s2 st' x t t'); auto.
    rewrite !app_length. reflexivity.
Qed.

(** ** Properties *)
Lemma C92_lemma_result : forall file blocks en, bytes_ok file -> file_ends file blocks en ->
  match en with
  | Complete => (exists out, recreate_file file = Ok out) /\ ~ Exists lacks_longest blocks
                \/ (exists msg, recreate_file file = Panic msg) /\ Exists lacks_longest blocks
  | Complains msg => recreate_file file = Err (EMsg msg)
  | RunsOut => recreate_file file = Err (EIo UnexpectedEof)
  end.
Proof.
  intros file blocks en HB HE. assert (R := ends_reads _ UnexpectedEof _ _ HB HE). unfold recreate_file.
  assert (X : en = Complete \/ exists er, result_of UnexpectedEof en = Err er /\
     match discard_header (mkSource file UnexpectedEof) with
     | (Ok header, raw) => let '(o, it) := parse_all raw in blocks <-? o ;; stream <-? compress_all blocks ;; raw <-? br_into_inner (bi_inner it) ;; Ok (header ++ stream ++ rest raw)
     | (Err e, _) => Err e | (Panic m, _) => Panic m | (Diverge, _) => Diverge end = Err er).
  { destruct en as [|msg|]; [left; reflexivity|right..].
    all: destruct R as [(er & s & E & _ & EO)|(h & body & E & [[EO _]|(er & EO & ED & _)])]; try discriminate EO.
    all: exists er; split; [exact EO|]; rewrite E.
    1, 3: reflexivity.
    all: unfold parse_all; cbn [rest]; destruct (bi_drain _ _) as [o it]; cbn [fst] in ED; subst o; reflexivity. }
  destruct X as [->|(er & EO & X)].
  2:{ destruct en; cbn [result_of] in EO; [discriminate EO|injection EO as <-; exact X..]. }
  clear R. inversion HE as [h st tail bl GH HS| | | | |]; subst.
  assert (EH : discard_header (mkSource (h ++ st ++ tail) UnexpectedEof) = (Ok h, mkSource (st ++ tail) UnexpectedEof)) by (apply C31_lemma; auto).
  rewrite EH. assert (HBB : bytes_ok (st ++ tail)) by (now apply Forall_app in HB).
  destruct (proj2 (parse_all_iff (st ++ tail) UnexpectedEof blocks tail HBB)) as (it & EP & EI); [eauto|].
  destruct (parse_all_wf _ _ _ _ HBB EP) as (WF & _). rewrite EP. cbn [obind].
  destruct (stream_again _ _ _ HS WF) as [HO|[P HL]].
  - left. assert (NE : blocks <> []) by (inversion HS; discriminate). destruct (C18_lemma_exact blocks UnexpectedEof NE HO) as (bytes & EC & _).
    rewrite EC. cbn [obind]. rewrite EI. cbn [obind rest]. split; [eauto|]. intro HL. apply Exists_exists in HL. destruct HL as (b & HI & HL).
    rewrite Forall_forall in HO. exact (ok_lacks_panic b (HO b HI) HL).
  - right. split; [|exact HL]. destruct (P _ _ wst_new) as (msg & s & EC). exists msg. unfold compress_all. rewrite EC. reflexivity.
Qed.

Lemma rewritten file blocks out : bytes_ok file -> file_ends file blocks Complete -> recreate_file file = Ok out ->
  exists header stream tail st, file = header ++ stream ++ tail /\ gzip_header header /\ stream_bits 0 blocks (bits_of_bytes stream)
    /\ blocks <> [] /\ Forall block_ok blocks /\ compress_all blocks = Ok st /\ out = header ++ st ++ tail /\ bytes_ok out.
Proof.
  intros HB HE. assert (R := C92_lemma_result _ _ _ HB HE). cbn in R. intro E.
  destruct R as [(_ & NL)|((msg & X) & _)]; [|congruence].
  inversion HE as [h st tail bl GH HS| | | | |]; subst. unfold recreate_file in E.
  assert (EH : discard_header (mkSource (h ++ st ++ tail) UnexpectedEof) = (Ok h, mkSource (st ++ tail) UnexpectedEof)) by (apply C31_lemma; auto).
  rewrite EH in E. assert (HBB : bytes_ok (st ++ tail)) by (now apply Forall_app in HB).
  destruct (proj2 (parse_all_iff (st ++ tail) UnexpectedEof blocks tail HBB)) as (it & EP & EI); [eauto|].
  destruct (parse_all_wf _ _ _ _ HBB EP) as (WF & _). rewrite EP in E. cbn [obind] in E.
  destruct (stream_again _ _ _ HS WF) as [HO|[_ HL]]; [|contradiction].
  assert (NE : blocks <> []) by (inversion HS; discriminate). destruct (blocks_ok_writes blocks NE HO 0) as (w & HM & W). cbn [Nat.add] in HM.
  assert (EC := compress_all_writes _ _ (W [] eq_refl) HM). rewrite EC in E. cbn [obind] in E. rewrite EI in E. cbn [obind rest] in E. injection E as <-.
  exists h, st, tail, (pack w). split; [reflexivity|]. split; [exact GH|]. split; [exact HS|]. split; [exact NE|]. split; [exact HO|]. split; [exact EC|]. split; [reflexivity|].
  apply Forall_app in HB. apply Forall_app in HBB. apply Forall_app. split; [apply HB|]. apply Forall_app. split; [apply pack_bytes_ok|apply HBB].
Qed.

Lemma C92_lemma_exact : forall file blocks out, bytes_ok file -> file_ends file blocks Complete -> recreate_file file = Ok out ->
  bytes_ok out /\ (file_ends out blocks Complete <-> lengths_symmetric blocks).
Proof.
  intros file blocks out HB HE E. destruct (rewritten _ _ _ HB HE E) as (h & s & tail & st & -> & GH & HS & NE & HO & EC & -> & HBO).
  split; [exact HBO|]. destruct (C18_lemma_exact blocks UnexpectedEof NE HO) as (bytes & EC' & X & _). rewrite EC in EC'. injection EC' as <-.
  assert (HST : bytes_ok st) by (apply Forall_app in HBO; destruct HBO as [_ HBO]; now apply Forall_app in HBO). split.
  - intro HF. assert (HBB : bytes_ok (st ++ tail)) by (now apply Forall_app in HBO).
    assert (EH : discard_header (mkSource (h ++ st ++ tail) UnexpectedEof) = (Ok h, mkSource (st ++ tail) UnexpectedEof)) by (apply C31_lemma; auto).
    destruct (ends_reads _ UnexpectedEof _ _ HBO HF) as [(er & s' & E' & _)|(h' & body & E' & [[_ ED]|(er & X' & _)])]; [congruence| |discriminate X'].
    rewrite EH in E'. injection E' as <- <-. assert (EP : exists it, parse_all (mkSource (st ++ tail) UnexpectedEof) = (Ok blocks, it)).
    { unfold parse_all. cbn [rest]. destruct (bi_drain _ _) as [o it]. cbn [fst] in ED. subst o. eauto. }
    destruct EP as (it & EP). destruct (parse_all_wf _ _ _ _ HBB EP) as (WF & used & tl & EU & SB & _).
    destruct (blocks_ok_writes blocks NE HO 0) as (w & HM & W). cbn [Nat.add] in HM. specialize (W [] eq_refl).
    assert (EC2 := compress_all_writes _ _ W HM). rewrite EC in EC2. injection EC2 as ->. destruct (W _ wst_new) as (fs & EW & WS).
    unfold lengths_symmetric. eapply canonical_symmetric. apply (stream_prefix 0 blocks _ SB WF [] _ fs w (bits_of_bytes tl) (bits_of_bytes tail) eq_refl wst_new EW WS).
    rewrite <- bits_of_bytes_app, <- EU, bits_of_bytes_app, bits_of_pack_full by exact HM. reflexivity.
  - intro HSY. destruct (X HSY) as (it & EP & EI). destruct (proj1 (parse_all_iff st UnexpectedEof blocks [] HST)) as (used & EU & SB); [eauto|].
    rewrite app_nil_r in EU. subst used. now constructor.
Qed.

Lemma C92_lemma_idempotent : forall file blocks out, bytes_ok file -> file_ends file blocks Complete -> recreate_file file = Ok out ->
  lengths_symmetric blocks -> recreate_file out = Ok out.
Proof.
  intros file blocks out HB HE E HSY. assert (X := C92_lemma_exact _ _ _ HB HE E). destruct (rewritten _ _ _ HB HE E) as (h & s & tail & st & -> & GH & HS & NE & HO & EC & -> & HBO).
  apply (proj2 (C56_lemma _ HBO)). exists h, st, tail, blocks. split; [reflexivity|]. split; [exact GH|].
  destruct (C18_lemma_exact blocks UnexpectedEof NE HO) as (bytes & EC' & Y & _). rewrite EC in EC'. injection EC' as <-. destruct (Y HSY) as (it & EP & EI).
  assert (HST : bytes_ok st) by (apply Forall_app in HBO; destruct HBO as [_ HBO']; now apply Forall_app in HBO').
  apply (proj1 (C19_exact_lemma st [] UnexpectedEof blocks it ltac:(now rewrite app_nil_r) ltac:(now rewrite app_nil_r) EI)). exact EC.
Qed.

Lemma C92_lemma_same : forall file blocks out, bytes_ok file -> file_ends file blocks Complete -> recreate_file file = Ok out ->
  lengths_symmetric blocks ->
  forall e room, dump_run (mkSource out e) = dump_run (mkSource file e)
    /\ fst (cat_run (mkSource out e) (sink_with room)) = fst (cat_run (mkSource file e) (sink_with room))
    /\ written (snd (cat_run (mkSource out e) (sink_with room))) = written (snd (cat_run (mkSource file e) (sink_with room))).
Proof.
  intros file blocks out HB HE E HSY e room. destruct (C92_lemma_exact _ _ _ HB HE E) as [HBO X]. apply (proj2 X) in HSY.
  rewrite (C88_lemma_dump _ e _ _ HB HE), (C88_lemma_dump _ e _ _ HBO HSY). split; [reflexivity|].
  destruct (C88_lemma_decodes (flat_map block_codes blocks)) as (data & all & HD).
  destruct (C88_lemma_cat _ e room _ _ _ _ HB HE HD) as (o1 & E1 & W1). destruct (C88_lemma_cat _ e room _ _ _ _ HBO HSY HD) as (o2 & E2 & W2).
  rewrite E1, E2. cbn [fst snd]. split; [reflexivity|congruence].
Qed.

(** A stored block of five bytes. *)
Definition hello_file : list N := [31; 139; 8; 0; 0; 0; 0; 0; 0; 3] ++ [1; 5; 0; 250; 255; 104; 101; 108; 108; 111] ++ [1; 2; 3; 4; 5; 6; 7; 8].
Lemma C92_lemma_refuted : exists file out, bytes_ok file /\ recreate_file file = Ok out
  /\ cat_run (mkSource file UnexpectedEof) new_sink = (Ok tt, mkSink [104; 101; 108; 108; 111] None)
  /\ fst (cat_run (mkSource out UnexpectedEof) new_sink) = Err (EIo UnexpectedEof).
Proof.
  exists hello_file. eexists. split; [repeat constructor|]. split; [vm_compute; reflexivity|]. split; vm_compute; reflexivity.
Qed.
