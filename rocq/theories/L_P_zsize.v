(** Proofs of C105. *)
From Verif Require Import Base M_bit M_lib M_circles M_gzip M_parse M_serialise M_rezippers Spec Clients Clients_zero
  L_bits L_ring L_parse L_P_circ L_P_parse L_P_gzip L_rsync L_P_rez L_P_zero L_P_rsync L_header L_P_edit.
From Coq Require Import ZArith ZifyBool ZifyNat ZifyN.
Ltac Zify.zify_post_hook ::= Z.div_mod_to_equations.
Local Open Scope N_scope.
Local Open Scope model_scope.

Lemma stored_block_size f c : List.length (stored_block f c) = (5 + List.length c)%nat.
Proof. unfold stored_block, le16_bytes. rewrite !app_length. reflexivity. Qed.
Lemma stored_size chunks : List.length (stored_blocks chunks) = (5 * List.length chunks + List.length (flat chunks))%nat.
Proof.
  unfold flat. induction chunks as [|c cs IH]; [reflexivity|]. cbn [stored_blocks flat_map List.length]. rewrite app_length.
  destruct cs as [|c2 cs]; [rewrite stored_block_size; cbn [flat_map List.length]; lia|]. rewrite app_length, stored_block_size, IH. cbn [List.length]. lia.
Qed.
Lemma chunked_count chunks : chunked chunks -> let n := N.of_nat (List.length (flat chunks)) in let k := N.of_nat (List.length chunks) in
  n <= 65536 * k /\ 8192 * k <= n + 8191.
Proof.
  unfold flat. cbv zeta. induction 1 as [|c NC HL U|c cs NC HL U HM HS CH IH].
  - cbn [flat_map List.length]. lia.
  - cbn [flat_map List.length]. rewrite app_nil_r. destruct c; [congruence|]. cbn [List.length] in *. lia.
  - cbn [flat_map List.length]. rewrite app_length. lia.
Qed.

Lemma zero_size inflate header content file chunks : decompressor_right inflate -> bytes_ok file -> gzip_of header content file -> content <> [] ->
  chunked chunks -> flat chunks = content ->
  exists zeroed, (forall e, zero_run inflate (mkSource file e) new_sink = (Ok tt, mkSink zeroed None))
    /\ N.of_nat (List.length zeroed) = N.of_nat (List.length header) + N.of_nat (List.length content) + 5 * N.of_nat (List.length chunks) + 8.
Proof.
  intros DR HB G NE CH EF. destruct (written_by _ _ _ _ DR HB G NE) as (BC & cs & EF' & CH' & EC & EZ). assert (cs = chunks) by (apply chunked_unique; auto; unfold flat in *; congruence). subst cs.
  eexists. split; [exact EZ|]. rewrite !app_length, stored_size, EF. cbn [List.length le32_bytes]. unfold le32_bytes. cbn [List.length]. lia.
Qed.

Lemma C105_lemma_size : forall inflate header content file, decompressor_right inflate -> bytes_ok file -> gzip_of header content file -> content <> [] ->
  exists zeroed, (forall e, zero_run inflate (mkSource file e) new_sink = (Ok tt, mkSink zeroed None))
    /\ let n := N.of_nat (List.length content) in let others := N.of_nat (List.length header) + n + 8 in
       others + 5 * ((n + 65535) / 65536) <= N.of_nat (List.length zeroed) <= others + 5 * ((n + 8191) / 8192).
Proof.
  intros inflate header content file DR HB G NE. destruct (gzip_of_parts _ _ _ HB G) as (_ & HC & _). destruct (chunks_exist content HC) as (chunks & EC & EF & CH).
  destruct (zero_size _ _ _ _ _ DR HB G NE CH EF) as (z & EZ & LZ). exists z. split; [exact EZ|]. cbv zeta. assert (X := chunked_count _ CH). cbv zeta in X. rewrite EF in X. rewrite LZ. lia.
Qed.

Lemma every_content header content : gzip_header header -> bytes_ok header -> bytes_ok content -> content <> [] -> exists file, bytes_ok file /\ gzip_of header content file.
Proof.
  intros GH BH BC NE. set (pieces := map (fun b => [b]) content).
  assert (EF : flat_map (fun c => c) pieces = content) by (unfold pieces; clear; induction content as [|b l IH]; [reflexivity|cbn [map flat_map app]; now rewrite IH]).
  assert (OK : Forall (fun c => bytes_ok c /\ N.of_nat (List.length c) < 65536) pieces).
  { unfold pieces. apply Forall_map. apply (Forall_impl _ (P := fun b => b < 256)); [|exact BC]. intros b H. split; [constructor; [exact H|constructor]|reflexivity]. }
  exists (header ++ stored_blocks pieces). split.
  - apply Forall_app. split; [exact BH|]. rewrite <- stored_blocks_eq. apply chunks_bytes_ok. apply (Forall_impl _ (fun c H => proj1 H) OK).
  - rewrite <- EF at 1. apply pieces_gzip; [exact GH| |exact OK]. unfold pieces. destruct content; [congruence|discriminate].
Qed.

(** [k] times the same chunk. *)
Lemma repeated_chunked c k : c <> [] -> N.of_nat (List.length c) <= 65536 -> rsync_unbroken c -> 8192 <= N.of_nat (List.length c) -> (N.of_nat (List.length c) = 65536 \/ rsync_stop c) ->
  chunked (repeat c k).
Proof.
  intros NC HL U HM HS. induction k as [|[|k] IH]; [constructor|constructor; assumption|]. cbn [repeat]. cbn [repeat] in IH. apply ch_more; auto. discriminate.
Qed.
Lemma flat_repeat c k : N.of_nat (List.length (flat (repeat c k))) = N.of_nat k * N.of_nat (List.length c).
Proof. unfold flat. induction k as [|k IH]; [reflexivity|]. cbn [repeat flat_map]. rewrite app_length. lia. Qed.

Lemma C105_lemma_bounds : forall inflate header k, decompressor_right inflate -> bytes_ok header -> gzip_header header -> (0 < k)%nat ->
  (exists content file, bytes_ok file /\ gzip_of header content file /\ N.of_nat (List.length content) = 65536 * N.of_nat k
    /\ exists zeroed, (forall e, zero_run inflate (mkSource file e) new_sink = (Ok tt, mkSink zeroed None))
        /\ N.of_nat (List.length zeroed) = N.of_nat (List.length header) + N.of_nat (List.length content) + 8 + 5 * N.of_nat k)
  /\ (exists content file, bytes_ok file /\ gzip_of header content file /\ N.of_nat (List.length content) = 8192 * N.of_nat k
    /\ exists zeroed, (forall e, zero_run inflate (mkSource file e) new_sink = (Ok tt, mkSink zeroed None))
        /\ N.of_nat (List.length zeroed) = N.of_nat (List.length header) + N.of_nat (List.length content) + 8 + 5 * N.of_nat k).
Proof.
  intros inflate header k DR BH GH K0.
  assert (MAIN : forall c, bytes_ok c -> c <> [] -> chunked (repeat c k) -> exists content file, bytes_ok file /\ gzip_of header content file /\ N.of_nat (List.length content) = N.of_nat (List.length c) * N.of_nat k
    /\ exists zeroed, (forall e, zero_run inflate (mkSource file e) new_sink = (Ok tt, mkSink zeroed None))
        /\ N.of_nat (List.length zeroed) = N.of_nat (List.length header) + N.of_nat (List.length content) + 8 + 5 * N.of_nat k).
  { intros c BC NC CH. assert (L := flat_repeat c k). assert (BF : bytes_ok (flat (repeat c k))).
    { unfold flat. apply Forall_forall. intros x HX. apply in_flat_map in HX. destruct HX as (y & HY & HX). apply repeat_spec in HY. subst y. unfold bytes_ok in BC. rewrite Forall_forall in BC. auto. }
    assert (NF : flat (repeat c k) <> []) by (intro X; rewrite X in L; destruct c; [congruence|]; cbn [List.length] in L; nia).
    destruct (every_content header _ GH BH BF NF) as (file & BFI & G). destruct (zero_size _ _ _ _ _ DR BFI G NF CH eq_refl) as (z & EZ & LZ).
    rewrite repeat_length in LZ. exists (flat (repeat c k)), file. split; [exact BFI|]. split; [exact G|]. split; [lia|]. exists z. split; [exact EZ|lia]. }
  split.
  - assert (LS := stubborn_length). assert (BS := stubborn_bytes). assert (CS : chunks_of stubborn [stubborn]) by (unfold chunks_of; rewrite <- (map_length (@inl N errkind)); exact stubborn_chunk).
    destruct (chunks_chunked _ _ BS CS) as [_ CH]. assert (CA := chunked_all _ CH). inversion CA as [|x1 x2 (A1 & A2 & A3) _]; subst x1 x2.
    assert (E : N.of_nat (List.length stubborn) = 65536) by (rewrite LS; apply N2Nat.id). clear CA CS. assert (X := MAIN stubborn BS A1). rewrite E in X. apply X. apply repeated_chunked; auto; rewrite E; discriminate.
  - set (z := repeat 0 (N.to_nat 8192)). assert (LZ : List.length z = N.to_nat 8192) by apply repeat_length.
    assert (SZ : rsync_stop z) by (unfold rsync_stop, z; rewrite lastn_repeat, sum_zeros; reflexivity).
    assert (BZ : bytes_ok z) by (apply Forall_forall; intros y H; apply repeat_spec in H; subst; reflexivity).
    assert (E : N.of_nat (List.length z) = 8192) by (rewrite LZ; apply N2Nat.id).
    assert (U : rsync_unbroken z) by (intros n H1 H2; lia).
    assert (NZ : z <> []) by (intro X; rewrite X in E; discriminate E). clearbody z.
    assert (X := MAIN z BZ NZ). rewrite E in X. apply X. apply repeated_chunked; auto; rewrite E; discriminate.
Qed.

Lemma C105_lemma_exact : forall inflate header content file chunks, decompressor_right inflate -> bytes_ok file -> gzip_of header content file -> content <> [] ->
  chunks_of content chunks ->
  exists zeroed, (forall e, zero_run inflate (mkSource file e) new_sink = (Ok tt, mkSink zeroed None))
    /\ N.of_nat (List.length zeroed) = N.of_nat (List.length header) + N.of_nat (List.length content) + 5 * N.of_nat (List.length chunks) + 8.
Proof.
  intros inflate header content file chunks DR HB G NE EC. destruct (gzip_of_parts _ _ _ HB G) as (_ & HC & _). destruct (chunks_chunked _ _ HC EC) as [EF CH].
  apply zero_size; auto.
Qed.
