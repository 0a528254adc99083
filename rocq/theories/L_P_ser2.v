(** Proofs: exactly which block lists and blocks can be written and read back (C18, C20). *)
From Verif Require Import Base M_bit M_lib M_code_tree M_huffman M_parse M_serialise Spec Clients L_bits L_writer L_reader L_stored
  L_tree L_huff L_parse L_ser L_P_parse.
From Coq Require Import ZArith ZifyBool ZifyNat ZifyN.
Ltac Zify.zify_post_hook ::= Z.div_mod_to_equations.
Local Open Scope N_scope.
Local Open Scope model_scope.

Lemma block_ok_writes b off : block_ok b -> block_wf b /\ exists w, forall out, (List.length out = off)%nat -> writes out (compressed_block b) w.
Proof.
  intro HO. destruct b as [d|cs|v cs].
  - destruct HO as [OD HL]. split; [split; assumption|]. destruct (pads_exists (off + 2)) as (k & HP).
    destruct (block_written off (Uncompressed d) _ (BK_stored off d k HL OD HP)) as [(w & W & _)|[_ (ll & dl & hdr & cs & r & X & _)]]; [split; assumption|eauto|discriminate].
  - destruct (block_ok_canonical (FixedHuffman cs) off HO I) as (WF & w & HW). split; [exact WF|]. exists w. intros. eapply block_canonical; eauto.
  - destruct (block_ok_canonical (DynamicHuffman v cs) off HO I) as (WF & w & HW). split; [exact WF|]. exists w. intros. eapply block_canonical; eauto.
Qed.

Lemma blocks_ok_writes bs : bs <> [] -> Forall block_ok bs -> forall off, exists w,
  ((off + List.length w) mod 8 = 0)%nat /\ forall out, (List.length out = off)%nat -> writes out (compress_blocks bs) w.
Proof.
  induction bs as [|b bs IH]; intros NE HO off; [contradiction|]. inversion HO as [|? ? HB HS]; subst.
  destruct (block_ok_writes b (off + 1) HB) as (_ & w & W). destruct bs as [|b1 bs].
  - destruct (pads_exists (off + 1 + List.length w)) as (k & HP). exists ([true] ++ w ++ repeat false k). split.
    { destruct HP as [_ HP]. rewrite !app_length, repeat_length. cbn [List.length]. replace (off + (1 + (List.length w + k)))%nat with (off + 1 + List.length w + k)%nat by lia. exact HP. }
    intros out Ho. cbn [compress_blocks]. apply (writes_bind out _ _ [true]); [apply writes_bit|].
    apply writes_bind; [apply W; rewrite app_length; cbn [List.length]; lia|].
    apply writes_align. rewrite !app_length, Ho. exact HP.
  - destruct (IH ltac:(discriminate) HS (off + 1 + List.length w)%nat) as (ws & HM & WS). exists ([false] ++ w ++ ws). split.
    { rewrite !app_length. cbn [List.length]. replace (off + (1 + (List.length w + List.length ws)))%nat with (off + 1 + List.length w + List.length ws)%nat by lia. exact HM. }
    intros out Ho. cbn [compress_blocks]. apply (writes_bind out _ _ [false]); [apply writes_bit|].
    apply writes_bind; [apply W; rewrite app_length; cbn [List.length]; lia|].
    apply WS. rewrite !app_length, Ho. reflexivity.
Qed.

Lemma canonical_symmetric off bs w : canonical_stream off bs w -> forall data, In (Uncompressed data) bs -> symmetric_length data.
Proof.
  assert (B : forall off data w, canonical_block off (Uncompressed data) w -> symmetric_length data) by (intros o data x H; inversion H; assumption).
  induction 1 as [off b w k HB HP | off b bs w ws HN HB HS IH]; intros data [E|HI]; subst.
  - eapply B; eauto.
  - destruct HI.
  - eapply B; eauto.
  - auto.
Qed.

Lemma C18_lemma_exact : forall blocks e, blocks <> [] -> Forall block_ok blocks ->
  exists bytes, compress_all blocks = Ok bytes
    /\ ((forall data, In (Uncompressed data) blocks -> symmetric_length data) ->
        exists it, parse_all (mkSource bytes e) = (Ok blocks, it) /\ br_into_inner (bi_inner it) = Ok (mkSource [] e))
    /\ ((exists it, parse_all (mkSource bytes e) = (Ok blocks, it)) ->
        forall data, In (Uncompressed data) blocks -> symmetric_length data).
Proof.
  intros blocks e NE HO. destruct (blocks_ok_writes blocks NE HO 0) as (w & HM & W). cbn [Nat.add] in HM. specialize (W [] eq_refl).
  exists (pack w). assert (EC := compress_all_writes _ _ W HM). split; [exact EC|]. split.
  - intro HS. destruct (C18_partial_lemma blocks e NE HO HS) as (bytes & it & E & EP & EI). rewrite EC in E. injection E as <-. eauto.
  - intros (it & EP). assert (OW := pack_bytes_ok w).
    destruct (parse_all_wf _ _ _ _ OW EP) as (WF & used & tail & EU & HS & _).
    destruct (W _ wst_new) as (st & ES & WS). cbn [app] in WS.
    destruct (stream_matches 0 blocks (bits_of_bytes used) HS WF [] _ st (bits_of_bytes tail) eq_refl wst_new ES) as [CS _].
    { cbn [app]. rewrite <- bits_of_bytes_app, <- EU, bits_of_pack_full by exact HM. exact WS. }
    eapply canonical_symmetric; eauto.
Qed.

Lemma canonical_body_285 ll dl cs w : canonical_body ll dl cs w -> forall r, In (Reference r) cs -> ref_len r = 258 -> rfc_code ll 285 <> None.
Proof.
  induction 1 as [w E|c cs w ws HC HB IH]; intros r HI HR; [destruct HI|]. destruct HI as [->|HI]; [|eauto].
  destruct HC as [_ HC]. destruct (HC HR) as (lw & t & E & _). congruence.
Qed.

Lemma C20_lemma_exact : forall bytes e n b, bytes_ok bytes ->
  In (Ok (Some b)) (fst (call_next n (parse_deflate (mkSource bytes e)))) ->
  match b with
  | Uncompressed _ | FixedHuffman _ => fst (compressed_block b (bw_new new_sink)) = Ok tt
  | DynamicHuffman trees cs =>
      exists ll dl hdr, trees = bitvec_of hdr /\ dyn_header ll dl hdr
        /\ let lacks_258 := exists r, In (Reference r) cs /\ ref_len r = 258 /\ rfc_code ll 285 = None in
           (lacks_258 -> exists msg, fst (compressed_block b (bw_new new_sink)) = Panic msg)
           /\ (~ lacks_258 -> fst (compressed_block b (bw_new new_sink)) = Ok tt)
  end.
Proof.
  intros bytes e n b HB HI. destruct (call_next_live e n _ _ (live_new bytes e HB)) as (_ & _ & _ & H).
  destruct (H b HI) as (off & w & BB & WF).
  destruct b as [d|cs|v cs].
  - destruct (C20_partial_lemma bytes e n _ HB HI) as [E|[_ (ll & dl & hdr & cs & r & X & _)]]; [exact E|discriminate].
  - destruct (C20_partial_lemma bytes e n _ HB HI) as [E|[_ (ll & dl & hdr & cs' & r & X & _)]]; [exact E|discriminate].
  - inversion BB as [| |ll dl hdr cs0 w0 HD HBb]; subst. exists ll, dl, hdr. split; [reflexivity|]. split; [exact HD|]. cbv zeta.
    destruct (dyn_tables _ _ _ HD) as (lt & dt & ER & TL & LL & TD).
    destruct (body_written ll dl lt dt cs w0 TL LL TD HBb WF) as [(w' & CB & W & _)|[P X]].
    + assert (WW : writes [] (compressed_block (DynamicHuffman (bitvec_of hdr) cs)) (lsb 2 2 ++ hdr ++ w')).
      { cbn [compressed_block]. apply writes_bind; [apply (writes_bits_val [] 2 2); lia|].
        apply writes_bind; [apply writes_vec|]. eapply writes_lift_ok; [exact ER|]. apply W. }
      destruct (WW _ wst_new) as (st & E & _). split.
      * intros (r & HR & H258 & HN). destruct (canonical_body_285 _ _ _ _ CB r HR H258 HN).
      * intros _. now rewrite E.
    + assert (PP : panics (compressed_block (DynamicHuffman (bitvec_of hdr) cs))).
      { cbn [compressed_block]. eapply panics_bind_r; [intro out; apply (writes_bits_val out 2 2); lia|].
        eapply panics_bind_r; [intro out; apply writes_vec|]. eapply panics_lift; [exact ER|]. exact P. }
      destruct (PP [] _ wst_new) as (msg & st & E). split; [|intro NX; destruct (NX X)]. intros _. exists msg. now rewrite E.
Qed.
