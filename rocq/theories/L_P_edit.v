(** Proofs of C104. *)
From Verif Require Import Base M_bit M_lib M_circles M_gzip M_parse M_serialise M_rezippers Spec Clients Clients_zero
  L_bits L_ring L_parse L_P_circ L_P_parse L_P_gzip L_rsync L_P_rez L_P_zero L_P_rsync L_header.
From Coq Require Import ZArith ZifyBool ZifyNat ZifyN.
Ltac Zify.zify_post_hook ::= Z.div_mod_to_equations.
Local Open Scope N_scope.
Local Open Scope model_scope.

Definition flat (chunks : list (list N)) : list N := flat_map (fun c => c) chunks.
Definition blocks_then (chunks : list (list N)) : list N := flat_map (stored_block false) chunks.

Lemma stored_app a b : b <> [] -> stored_blocks (a ++ b) = blocks_then a ++ stored_blocks b.
Proof.
  intro NB. induction a as [|c a IH]; [reflexivity|]. cbn [app blocks_then flat_map]. rewrite <- app_assoc. fold (blocks_then a). rewrite <- IH.
  cbn [stored_blocks]. destruct (a ++ b) eqn:E; [apply app_eq_nil in E; tauto|reflexivity].
Qed.
Lemma stored_block_length f c : (List.length c <= List.length (stored_block f c))%nat.
Proof. unfold stored_block. rewrite !app_length. lia. Qed.
Lemma blocks_then_length a : (List.length (flat a) <= List.length (blocks_then a))%nat.
Proof.
  induction a as [|c a IH]; [reflexivity|]. unfold flat, blocks_then in *. cbn [flat_map]. rewrite !app_length. assert (X := stored_block_length false c). lia.
Qed.
Lemma stored_length a : (List.length (flat a) <= List.length (stored_blocks a))%nat.
Proof.
  destruct a as [|c a] using rev_ind; [reflexivity|]. rewrite stored_app by discriminate. assert (X := blocks_then_length a). unfold flat in *. rewrite flat_map_app, !app_length.
  cbn [flat_map stored_blocks]. assert (Y := stored_block_length true c). rewrite app_nil_r. lia.
Qed.

Lemma chunks_exist content : bytes_ok content -> exists chunks, chunks_of content chunks /\ flat chunks = content /\ chunked chunks.
Proof. intro HB. destruct (take_all_spec (S (List.length content)) content HB ltac:(lia)) as (cs & E & EF & CH). exists cs. auto. Qed.
Lemma chunks_are content chunks : bytes_ok content -> flat chunks = content -> chunked chunks -> chunks_of content chunks.
Proof.
  intros HB EF CH. destruct (chunks_exist content HB) as (cs & E & EF' & CH'). assert (X := chunked_unique cs chunks CH' CH ltac:(unfold flat in *; congruence)). now subst.
Qed.

Lemma written_by inflate header content file : decompressor_right inflate -> bytes_ok file -> gzip_of header content file -> content <> [] ->
  bytes_ok content /\ exists chunks, flat chunks = content /\ chunked chunks /\ chunks_of content chunks /\ forall e, zero_run inflate (mkSource file e) new_sink
    = (Ok tt, mkSink (header ++ stored_blocks chunks ++ le32_bytes (crc32 content) ++ le32_bytes (N.of_nat (List.length content) mod 2 ^ 32)) None).
Proof.
  intros DR HB G NE. destruct (gzip_of_parts _ _ _ HB G) as (_ & HC & _). split; [exact HC|]. destruct (chunks_exist content HC) as (chunks & EC & EF & CH). exists chunks. split; [exact EF|]. split; [exact CH|]. split; [exact EC|]. intro e.
  rewrite <- stored_blocks_eq. now apply zeroed.
Qed.

(** The chunk with the byte at [q]. *)
Lemma chunk_with chunks : chunked chunks -> forall q, (q < List.length (flat chunks))%nat ->
  exists before c after, chunks = before ++ c :: after /\ (List.length (flat before) <= q < List.length (flat before) + List.length c)%nat /\ N.of_nat (List.length c) <= 65536.
Proof.
  intro CH. induction CH as [|c NC HL U|c cs NC HL U HM HS CH IH]; intros q HQ.
  - cbn [flat flat_map List.length] in HQ. lia.
  - unfold flat in HQ. cbn [flat_map] in HQ. rewrite app_nil_r in HQ. exists [], c, []. cbn [flat flat_map List.length app]. split; [reflexivity|]. split; [lia|exact HL].
  - unfold flat in HQ. cbn [flat_map] in HQ. rewrite app_length in HQ. destruct (Nat.ltb_spec q (List.length c)) as [X|X].
    + exists [], c, cs. cbn [flat flat_map List.length app]. split; [reflexivity|]. split; [lia|exact HL].
    + destruct (IH (q - List.length c)%nat ltac:(unfold flat; lia)) as (b & x & a & -> & H1 & H2). exists (c :: b), x, a. unfold flat in *. cbn [flat_map app]. rewrite app_length. split; [reflexivity|]. split; [lia|exact H2].
Qed.

Lemma C104_lemma_before : forall inflate header header' start rest rest' file file',
  decompressor_right inflate -> bytes_ok file -> bytes_ok file' ->
  gzip_of header (start ++ rest) file -> gzip_of header' (start ++ rest') file' -> start ++ rest <> [] -> start ++ rest' <> [] ->
  exists same other other',
    (forall e, zero_run inflate (mkSource file e) new_sink = (Ok tt, mkSink (header ++ same ++ other) None))
    /\ (forall e, zero_run inflate (mkSource file' e) new_sink = (Ok tt, mkSink (header' ++ same ++ other') None))
    /\ N.of_nat (List.length start) <= N.of_nat (List.length same) + 65536.
Proof.
  intros inflate header header' start rest rest' file file' DR HB HB' G G' NE NE'.
  destruct (written_by _ _ _ _ DR HB G NE) as (BC & cs & EF & CH & EC & EZ). destruct (written_by _ _ _ _ DR HB' G' NE') as (BC' & cs' & EF' & CH' & EC' & EZ').
  destruct start as [|s start]; [exists []; eexists; eexists; split; [exact EZ|]; split; [exact EZ'|cbn [List.length]; lia]|].
  destruct (chunk_with cs CH (List.length start)) as (before & c & after & -> & HQ & HL).
  { rewrite EF, app_length. cbn [List.length]. lia. }
  assert (EP : exists y, s :: start = flat before ++ y /\ y <> []).
  { exists (skipn (List.length (flat before)) (s :: start)). split.
    - rewrite <- (firstn_skipn (List.length (flat before)) (s :: start)) at 1. f_equal.
      assert (X := f_equal (firstn (List.length (flat before))) EF). unfold flat in X at 2. rewrite flat_map_app in X. fold (flat before) in X.
      rewrite firstn_app, firstn_all, Nat.sub_diag, firstn_O, app_nil_r, firstn_app in X. replace (List.length (flat before) - List.length (s :: start))%nat with 0%nat in X by (cbn [List.length]; lia).
      rewrite firstn_O, app_nil_r in X. symmetry. exact X.
    - intro X. apply (f_equal (@List.length _)) in X. rewrite skipn_length in X. cbn [List.length] in X. lia. }
  destruct EP as (y & EY & NY).
  destruct (same_chunks before (c :: after) (y ++ rest') cs' CH ltac:(discriminate) CH') as (more & ->).
  { unfold flat in EF'. rewrite EF', EY. unfold flat. now rewrite app_assoc. }
  assert (NM : more <> []).
  { intros ->. rewrite app_nil_r, EY in EF'. apply (f_equal (@List.length _)) in EF'. rewrite !app_length in EF'. destruct y; [congruence|]. cbn [List.length] in EF'. lia. }
  exists (blocks_then before). eexists. eexists. split; [intro e; rewrite (EZ e), (stored_app before (c :: after) ltac:(discriminate)), <- app_assoc; reflexivity|].
  split; [intro e; rewrite (EZ' e), (stored_app before more NM), <- app_assoc; reflexivity|].
  assert (X := blocks_then_length before). cbn [List.length]. lia.
Qed.

(** A boundary where the sum is right and was not for 8191 bytes. *)
Lemma boundary_here start rest chunks p : chunked chunks -> flat chunks = start ++ rest ->
  16384 <= N.of_nat p -> (p <= List.length rest)%nat -> rsync_stop (firstn p rest) ->
  (forall q, (p < q + N.to_nat 8192)%nat -> (q < p)%nat -> ~ rsync_stop (firstn q rest)) ->
  Forall (fun c => N.of_nat (List.length c) <> 65536) chunks ->
  exists before after, chunks = before ++ after /\ flat after = skipn p rest.
Proof.
  intros CH EF LP HP ST NS NC.
  assert (LA : forall n, lastn (N.to_nat 8192) (firstn (List.length start + n) (start ++ rest)) = lastn (N.to_nat 8192) (firstn n rest) \/ (List.length (firstn n rest) < N.to_nat 8192)%nat).
  { intro n. rewrite firstn_app. replace (List.length start + n - List.length start)%nat with n by lia. rewrite firstn_all2 by lia.
    destruct (Nat.ltb_spec (List.length (firstn n rest)) (N.to_nat 8192)) as [X|X]; [now right|left]. now apply lastn_app_ge. }
  destruct (boundary_near chunks CH (List.length start + p)) as (before & after & -> & HB).
  { fold (flat chunks). rewrite EF, app_length. lia. }
  { fold (flat chunks). rewrite EF. unfold rsync_stop in *. destruct (LA p) as [X|X]; [now rewrite X|]. rewrite firstn_length in X. lia. }
  fold (flat before) in HB. exists before, after. split; [reflexivity|].
  assert (EA : forall n, List.length (flat before) = (List.length start + n)%nat -> flat before = firstn (List.length start + n) (start ++ rest) /\ flat after = skipn n rest).
  { intros n EN. unfold flat in EF. rewrite flat_map_app in EF. fold (flat before) (flat after) in EF. rewrite <- EF, <- EN. split.
    - now rewrite firstn_app, firstn_all, Nat.sub_diag, firstn_O, app_nil_r.
    - assert (X := f_equal (skipn (List.length (flat before))) EF). rewrite skipn_app, skipn_all, Nat.sub_diag in X. cbn [app skipn] in X. rewrite X, EN, skipn_app, skipn_all2 by lia.
      cbn [app]. f_equal. lia. }
  destruct (Nat.eq_dec (List.length (flat before)) (List.length start + p)) as [E|NE]; [exact (proj2 (EA p E))|exfalso].
  destruct (EA (List.length (flat before) - List.length start)%nat ltac:(lia)) as [E1 E2]. set (q := (List.length (flat before) - List.length start)%nat) in *.
  apply (NS q); [lia|lia|]. assert (NB : before <> []) by (intro X; rewrite X in HB; cbn [flat flat_map List.length] in HB; lia).
  destruct (exists_last NB) as (b0 & c & EL). clear NB. subst before. rewrite <- app_assoc in CH. apply chunked_tail in CH. cbn [app] in CH.
  assert (NA : after <> []). { intros ->. cbn [flat flat_map] in E2. apply (f_equal (@List.length _)) in E2. rewrite skipn_length in E2. cbn [List.length] in E2. lia. }
  assert (LC : N.of_nat (List.length c) <> 65536). { rewrite Forall_forall in NC. apply NC. rewrite !in_app_iff. left. right. now left. }
  inversion CH as [|? ? ? ? Z|? ? N1 N2 N3 N4 N5 N6]; subst; [congruence|]. destruct N5 as [N5|N5]; [congruence|].
  unfold rsync_stop in *. destruct (LA q) as [X|X]; [|rewrite firstn_length in X; lia]. rewrite <- X, <- E1. unfold flat. rewrite flat_map_app. cbn [flat_map]. rewrite app_nil_r.
  rewrite lastn_app_ge by lia. exact N5.
Qed.

Lemma C104_lemma_after : forall inflate header header' start start' rest file file' p,
  decompressor_right inflate -> bytes_ok file -> bytes_ok file' ->
  gzip_of header (start ++ rest) file -> gzip_of header' (start' ++ rest) file' ->
  16384 <= N.of_nat p -> (p < List.length rest)%nat -> rsync_stop (firstn p rest) ->
  (forall q, (p < q + N.to_nat 8192)%nat -> (q < p)%nat -> ~ rsync_stop (firstn q rest)) ->
  (forall chunks, chunks_of (start ++ rest) chunks \/ chunks_of (start' ++ rest) chunks -> Forall (fun c => N.of_nat (List.length c) <> 65536) chunks) ->
  exists other other' same trailer trailer',
    (forall e, zero_run inflate (mkSource file e) new_sink = (Ok tt, mkSink (header ++ other ++ same ++ trailer) None))
    /\ (forall e, zero_run inflate (mkSource file' e) new_sink = (Ok tt, mkSink (header' ++ other' ++ same ++ trailer') None))
    /\ List.length trailer = 8%nat /\ List.length trailer' = 8%nat /\ (List.length rest - p <= List.length same)%nat.
Proof.
  intros inflate header header' start start' rest file file' p DR HB HB' G G' LP HP ST NS NC.
  assert (NE : forall l, l ++ rest <> []) by (intros l X; apply app_eq_nil in X; destruct X as [_ ->]; cbn [List.length] in HP; lia).
  destruct (written_by _ _ _ _ DR HB G (NE _)) as (BC & cs & EF & CH & EC & EZ). destruct (written_by _ _ _ _ DR HB' G' (NE _)) as (BC' & cs' & EF' & CH' & EC' & EZ').
  destruct (boundary_here start rest cs p CH EF LP ltac:(lia) ST NS (NC _ (or_introl EC))) as (b & a & -> & EA).
  destruct (boundary_here start' rest cs' p CH' EF' LP ltac:(lia) ST NS (NC _ (or_intror EC'))) as (b' & a' & -> & EA').
  assert (a' = a) as -> by (apply chunked_unique; [eauto using chunked_tail|eauto using chunked_tail|]; unfold flat in *; congruence).
  assert (LA : List.length (flat a) = (List.length rest - p)%nat) by (rewrite EA, skipn_length; reflexivity).
  assert (NA : a <> []) by (intros ->; cbn [flat flat_map List.length] in LA; lia).
  exists (blocks_then b), (blocks_then b'), (stored_blocks a). eexists. eexists.
  split; [intro e; rewrite (EZ e), (stored_app b a NA), <- app_assoc; reflexivity|]. split; [intro e; rewrite (EZ' e), (stored_app b' a NA), <- app_assoc; reflexivity|].
  split; [reflexivity|]. split; [reflexivity|]. assert (X := stored_length a). lia.
Qed.

(** A content with such a place. *)
Definition marked : list N := repeat 0 (N.to_nat 8191) ++ [1] ++ repeat 0 (N.to_nat 8192) ++ [5].
Lemma marked_length : List.length marked = N.to_nat 16385.
Proof. unfold marked. rewrite !app_length, !repeat_length. cbn [List.length]. lia. Qed.
Lemma marked_bytes : bytes_ok marked.
Proof. unfold marked. repeat (apply Forall_app; split); try (apply Forall_forall; intros y H; apply repeat_spec in H; subst; reflexivity); repeat constructor. Qed.
Lemma skipn_zeros k n : skipn k (repeat 0 n) = repeat 0 (n - k).
Proof. revert n. induction k as [|k IH]; intros [|n]; cbn [skipn repeat Nat.sub]; auto. Qed.
Lemma sum_split a b : sum_list (a ++ b) = sum_list a + sum_list b.
Proof. induction a as [|x a IH]; [reflexivity|]. change (x + sum_list (a ++ b) = x + sum_list a + sum_list b). lia. Qed.
Lemma marked_stop : rsync_stop (firstn (N.to_nat 16384) marked).
Proof.
  unfold rsync_stop. assert (E : firstn (N.to_nat 16384) marked = (repeat 0 (N.to_nat 8191) ++ [1]) ++ repeat 0 (N.to_nat 8192)).
  { unfold marked. rewrite app_assoc, app_assoc, firstn_app. rewrite !app_length, !repeat_length. cbn [List.length].
    replace (N.to_nat 16384 - _)%nat with 0%nat by lia. rewrite firstn_O, app_nil_r. apply firstn_all2. rewrite !app_length, !repeat_length. cbn [List.length]. lia. }
  rewrite E, lastn_app_ge by (rewrite repeat_length; lia). rewrite lastn_repeat, sum_zeros. reflexivity.
Qed.
Lemma marked_go q : (N.to_nat 16384 < q + N.to_nat 8192)%nat -> (q < N.to_nat 16384)%nat -> ~ rsync_stop (firstn q marked).
Proof.
  intros H1 H2. unfold rsync_stop. assert (E : firstn q marked = repeat 0 (N.to_nat 8191) ++ [1] ++ repeat 0 (q - N.to_nat 8192)).
  { unfold marked. rewrite firstn_app, repeat_length, firstn_all2 by (rewrite repeat_length; lia). f_equal. rewrite firstn_app. cbn [List.length].
    rewrite (firstn_all2 [1]) by (cbn [List.length]; lia). f_equal. rewrite firstn_app, firstn_repeat, repeat_length. replace (q - N.to_nat 8191 - 1 - N.to_nat 8192)%nat with 0%nat by lia.
    rewrite firstn_O, app_nil_r. f_equal. lia. }
  rewrite E. unfold lastn. rewrite skipn_app, skipn_zeros. rewrite !app_length, !repeat_length. cbn [List.length].
  replace (N.to_nat 8191 + (1 + (q - N.to_nat 8192)) - N.to_nat 8192 - N.to_nat 8191)%nat with 0%nat by lia.
  cbn [skipn]. rewrite !sum_split, !sum_zeros. discriminate.
Qed.
Lemma small_chunks content chunks : bytes_ok content -> N.of_nat (List.length content) < 65536 -> chunks_of content chunks -> Forall (fun c => N.of_nat (List.length c) <> 65536) chunks.
Proof.
  intros HB HL EC. destruct (chunks_chunked _ _ HB EC) as [EF _]. apply Forall_forall. intros c HI. apply in_split in HI. destruct HI as (a & b & ->).
  rewrite flat_map_app in EF. cbn [flat_map] in EF. apply (f_equal (@List.length _)) in EF. rewrite !app_length in EF. lia.
Qed.
