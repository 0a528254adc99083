(** Proofs of C95: what [zero] leaves behind when it does not finish. *)
From Verif Require Import Base M_bit M_lib M_code_tree M_huffman M_circles M_gzip M_parse M_serialise M_rezippers Spec Clients Clients_wrong Clients_verdict Clients_zero
  L_bits L_reader L_writer L_gzip L_parse L_rsync L_P_parse L_P_gzip L_P_rez L_P_zero L_P_rsync L_wrong L_P_wrong L_P_verdict.
From Coq Require Import ZArith ZifyBool ZifyNat ZifyN.
Ltac Zify.zify_post_hook ::= Z.div_mod_to_equations.
Local Open Scope N_scope.
Local Open Scope model_scope.

Definition closed_chunk (c : list N) : Prop :=
  8192 <= N.of_nat (List.length c) <= 65536 /\ rsync_unbroken c /\ (N.of_nat (List.length c) = 65536 \/ rsync_stop c).

Definition good_item (x : N + errkind) : Prop := match x with inl b => b < 256 | inr _ => True end.

(** Two prefixes of the same bytes, the first one closed. *)
Lemma closed_shortest c l c' l' : closed_chunk c -> c ++ l = c' ++ l' -> N.of_nat (List.length c') <= 65536 -> rsync_unbroken c' ->
  (List.length c' <= List.length c)%nat.
Proof.
  intros (L & U & S) E L' U'. destruct (Nat.le_gt_cases (List.length c') (List.length c)) as [|G]; [assumption|exfalso].
  assert (F : c = firstn (List.length c) c').
  { assert (X := f_equal (firstn (List.length c)) E). rewrite firstn_app, firstn_all, Nat.sub_diag, firstn_O, app_nil_r in X.
    rewrite firstn_app in X. replace (List.length c - List.length c')%nat with O in X by lia. rewrite firstn_O, app_nil_r in X. exact X. }
  destruct S as [S|S]; [lia|]. apply (U' (List.length c)); [lia|lia|]. now rewrite <- F.
Qed.

Lemma app_same {A} (a b c d : list A) : a ++ b = c ++ d -> List.length a = List.length c -> a = c /\ b = d.
Proof. intros E L. split; [apply (f_equal (firstn (List.length a))) in E|apply (f_equal (skipn (List.length a))) in E].
  - rewrite firstn_app, firstn_all, Nat.sub_diag, firstn_O, app_nil_r in E. rewrite L, firstn_app, firstn_all, Nat.sub_diag, firstn_O, app_nil_r in E. exact E.
  - rewrite skipn_app, skipn_all, Nat.sub_diag in E. cbn [skipn app] in E. rewrite L, skipn_app, skipn_all, Nat.sub_diag in E. exact E.
Qed.

(** The bytes before the first error. *)
Fixpoint before_error (from : byte_iter) : list N := match from with inl b :: from' => b :: before_error from' | _ => [] end.
Lemma before_error_inl p from : before_error (map inl p ++ from) = p ++ before_error from.
Proof. induction p as [|x p IH]; cbn [map app before_error]; [reflexivity|]. now rewrite IH. Qed.

Lemma take_closed data x more c l : Forall good_item (map inl data ++ inr x :: more) -> closed_chunk c -> data = c ++ l ->
  take_rsync (map inl data ++ inr x :: more) = (Ok c, map inl l ++ inr x :: more).
Proof.
  intros HF HC ED. assert (T := C48_lemma_step _ HF). destruct (take_rsync (map inl data ++ inr x :: more)) as [[c'|er| |] f]; try contradiction.
  - destruct T as (EF & L' & U' & S'). assert (EB := f_equal before_error EF). rewrite !before_error_inl in EB. cbn [before_error] in EB. rewrite app_nil_r, ED in EB.
    assert (N1 := closed_shortest c l c' (before_error f) HC EB L' U').
    assert (N2 : (List.length c <= List.length c')%nat).
    { destruct S' as [->|[S1 S2]]; [exfalso; rewrite app_nil_r in EF; assert (X : In (inr x) (map (@inl N errkind) c')) by (rewrite <- EF; apply in_or_app; right; now left); apply in_map_iff in X; destruct X as (y & X & _); discriminate X|].
      destruct HC as (HL & HU & _). apply (closed_shortest c' (before_error f) c l); [split; [lia|split; assumption]|now symmetry|lia|assumption]. }
    destruct (app_same _ _ _ _ EB ltac:(lia)) as [<- _]. f_equal. subst data. rewrite map_app, <- app_assoc in EF. apply app_inv_head in EF. now symmetry.
  - exfalso. destruct T as (e & part & -> & EF & L' & U' & S'). assert (EB := f_equal before_error EF). rewrite !before_error_inl in EB. cbn [before_error] in EB. rewrite !app_nil_r, ED in EB.
    assert (N1 := closed_shortest c l part [] HC ltac:(now rewrite app_nil_r) ltac:(lia) U'). rewrite <- EB, app_length in N1. assert (l = []) by (destruct l; [reflexivity|cbn [List.length] in N1; lia]). subst l. rewrite app_nil_r in EB. subst part.
    destruct HC as (HL & _ & [S|S]); [lia|]. apply S'; [lia|exact S].
Qed.

Lemma take_open data x more : Forall good_item (map inl data ++ inr x :: more) ->
  N.of_nat (List.length data) < 65536 -> rsync_unbroken data -> (8192 <= N.of_nat (List.length data) -> ~ rsync_stop data) ->
  exists f, take_rsync (map inl data ++ inr x :: more) = (Err (EIo x), f).
Proof.
  intros HF L U S. assert (T := C48_lemma_step _ HF). destruct (take_rsync (map inl data ++ inr x :: more)) as [[c'|er| |] f]; try contradiction.
  - exfalso. destruct T as (EF & L' & U' & S'). assert (EB := f_equal before_error EF). rewrite !before_error_inl in EB. cbn [before_error] in EB. rewrite app_nil_r in EB.
    destruct S' as [->|[S1 S2]]; [rewrite app_nil_r in EF; assert (X : In (inr x) (map (@inl N errkind) c')) by (rewrite <- EF; apply in_or_app; right; now left); apply in_map_iff in X; destruct X as (y & X & _); discriminate X|].
    assert (N1 := closed_shortest c' (before_error f) data [] ltac:(split; [lia|split; assumption]) ltac:(now rewrite app_nil_r) ltac:(lia) U).
    rewrite EB, app_length in N1. assert (EN : before_error f = []) by (destruct (before_error f); [reflexivity|cbn [List.length] in N1; lia]). rewrite EN, app_nil_r in EB. subst c'.
    destruct S2 as [S2|S2]; [lia|]. now apply S.
  - destruct T as (e & part & -> & EF & _). exists f. do 2 f_equal. assert (EB := f_equal before_error EF). rewrite !before_error_inl in EB. cbn [before_error] in EB. rewrite !app_nil_r in EB. subst part.
    apply app_inv_head in EF. now injection EF as ->.
Qed.

Lemma not_nil {A} (a : list A) x b : is_nil (a ++ x :: b) = false.
Proof. now destruct a. Qed.

Lemma zero_loop_breaks fuel x more rest : N.of_nat (List.length rest) < 65536 -> rsync_unbroken rest -> (8192 <= N.of_nat (List.length rest) -> ~ rsync_stop rest) ->
  forall chunks data dl cs w, data = flat_map (fun c => c) chunks ++ rest -> Forall closed_chunk chunks -> Forall good_item (map inl data ++ inr x :: more) -> (List.length chunks < fuel)%nat ->
  exists f, zero_loop fuel dl cs (map inl data ++ inr x :: more, mkSink w None) = (Err (EIo x), (f, mkSink (w ++ flat_map (stored_block false) chunks) None)).
Proof.
  intros RL RU RS. induction fuel as [|fuel IH]; intros chunks data dl cs w ED HC HF HL; [lia|]. rewrite zero_loop_S. destruct chunks as [|c chunks].
  - cbn [flat_map app] in ED. subst rest. destruct (take_open data x more HF RL RU RS) as (f & ->). exists f. cbn [flat_map]. now rewrite app_nil_r.
  - inversion HC as [|? ? C1 C2]; subst. cbn [flat_map] in *. rewrite <- app_assoc in *. rewrite (take_closed _ x more c _ HF C1 eq_refl).
    destruct c as [|b c]; [exfalso; destruct C1 as [C1 _]; cbn [List.length] in C1; lia|]. cbn [is_nil]. rewrite putb_then.
    set (rd := map inl _ ++ inr x :: more). assert (NR : is_nil rd = false) by apply not_nil. rewrite NR.
    change (write_all (chunk_bytes false (b :: c)) (mkSink w None)) with (Ok tt, mkSink (w ++ stored_block false (b :: c)) None).
    destruct (IH chunks (flat_map (fun c => c) chunks ++ rest) ((dl + N.of_nat (List.length (b :: c))) mod 2 ^ 32) (crc_update cs (b :: c)) (w ++ stored_block false (b :: c)) eq_refl C2) as (f & EZ).
    + rewrite map_app, <- app_assoc in HF. now apply Forall_app in HF.
    + cbn [List.length] in HL. lia.
    + exists f. fold rd in EZ. etransitivity; [exact EZ|]. now rewrite <- app_assoc.
Qed.

Lemma chunks_short chunks : Forall closed_chunk chunks -> (List.length chunks <= List.length (flat_map (fun c => c) chunks))%nat.
Proof. induction 1 as [|c cs [H _] _ IH]; cbn [flat_map List.length]; [lia|]. rewrite app_length. lia. Qed.

Lemma C95_lemma_error : forall (inflate : source -> byte_iter) file e header body data x more chunks rest,
  discard_header (mkSource file e) = (Ok header, mkSource body e) ->
  inflate (mkSource body e) = map inl data ++ inr x :: more ->
  Forall (fun x => match x with inl b => b < 256 | inr _ => True end) (inflate (mkSource body e)) ->
  unfinished data chunks rest ->
  zero_run inflate (mkSource file e) new_sink = (Err (EIo x), mkSink (header ++ flat_map (stored_block false) chunks) None).
Proof.
  intros inflate file e header body data x more chunks rest EH EI HF (ED & HC & RL & RU & RS). rewrite EI in HF. unfold zero_run. rewrite EH, EI.
  set (bytes := map inl data ++ inr x :: more) in *. assert (NB : is_nil bytes = false) by apply not_nil. rewrite NB.
  fold (putb header). cbn zeta. rewrite putb_then. change (write_all header new_sink) with (Ok tt, mkSink header None). cbv beta iota.
  assert (LC := chunks_short chunks HC).
  destruct (zero_loop_breaks (S (List.length bytes)) x more rest RL RU RS chunks data 0 crc_digest header ED HC HF) as (f & EZ).
  { unfold bytes. rewrite app_length, map_length, ED, app_length. lia. }
  unfold bind at 1. cbv beta. match goal with |- context [zero_loop ?a ?b ?c ?d] => pose proof (EZ : zero_loop a b c d = _) as EZ2 end. rewrite EZ2. reflexivity.
Qed.

Lemma C95_lemma_always : forall data, bytes_ok data -> exists chunks rest, unfinished data chunks rest.
Proof.
  intro data. remember (List.length data) as n. revert data Heqn. induction n as [n IH] using (well_founded_induction Wf_nat.lt_wf). intros data EN HB.
  assert (HF : Forall good_item (map inl data ++ [inr UnexpectedEof])).
  { apply Forall_app. split; [apply Forall_map; exact HB|]. repeat constructor. }
  assert (T := C48_lemma_step _ HF). destruct (take_rsync (map inl data ++ [inr UnexpectedEof])) as [[c|er| |] f]; try contradiction.
  - destruct T as (EF & L' & U' & [->|[S1 S2]]).
    + exfalso. rewrite app_nil_r in EF. assert (X : In (inr UnexpectedEof) (map (@inl N errkind) c)) by (rewrite <- EF; apply in_or_app; right; now left). apply in_map_iff in X. destruct X as (y & X & _). discriminate X.
    + assert (EB := f_equal before_error EF). rewrite !before_error_inl in EB. cbn [before_error] in EB. rewrite app_nil_r in EB. set (l := before_error f) in *.
      subst data. rewrite app_length in EN. apply Forall_app in HB. destruct (IH (List.length l) ltac:(lia) l eq_refl (proj2 HB)) as (chunks & r & ED & HC & HR).
      exists (c :: chunks), r. split; [cbn [flat_map]; rewrite <- app_assoc; now f_equal|]. split; [|exact HR]. constructor; [|exact HC]. split; [lia|split; assumption].
  - destruct T as (e & part & -> & EF & L' & U' & S'). assert (EB := f_equal before_error EF). rewrite !before_error_inl in EB. cbn [before_error] in EB. rewrite !app_nil_r in EB. subst part.
    exists [], data. split; [reflexivity|]. split; [constructor|]. split; [exact L'|split; assumption].
Qed.

(** ** What can be read of a part of the output *)
Definition small_chunk (c : list N) : Prop := bytes_ok c /\ N.of_nat (List.length c) < 65536.

Lemma chunk_block final c : chunk_bytes final c = stored_block final c. Proof. reflexivity. Qed.

Lemma leading_chunks chunks : Forall small_chunk chunks -> forall off, (off mod 8 = 0)%nat ->
  leading off (map Uncompressed chunks) (bits_of_bytes (flat_map (stored_block false) chunks)).
Proof.
  induction 1 as [|c cs [HC HL] _ IH]; intros off HO; cbn [map flat_map]; [constructor|].
  destruct (block_of_chunk off false c HO HC HL) as (w & EW & BW & LW). rewrite bits_of_bytes_app, <- chunk_block, EW. cbn [app]. apply LD_block; [exact BW|]. apply IH. lia.
Qed.

(** A block of which the end is missing. *)
Lemma cut_too_short off final c m : (off mod 8 = 0)%nat -> small_chunk c -> (m < List.length (stored_block final c))%nat ->
  too_short off (bits_of_bytes (firstn m (stored_block final c))).
Proof.
  intros HO [HC HL] HM last w t' E. destruct (block_of_chunk off final c HO HC HL) as (wc & EW & BW & LW). rewrite chunk_block in EW.
  rewrite <- (firstn_skipn m (stored_block final c)), bits_of_bytes_app, E in EW. cbn [app] in EW. injection EW as -> EW. rewrite <- app_assoc in EW.
  assert (NE : bits_of_bytes (skipn m (stored_block final c)) <> []).
  { intro X. apply (f_equal (@List.length bool)) in X. rewrite bits_of_bytes_length, skipn_length in X. cbn [List.length] in X. lia. }
  set (u := bits_of_bytes (skipn m (stored_block final c))) in *.
  assert (R := block_complete (EofErr (EIo UnexpectedEof)) (off + 1) (Uncompressed c) wc [] BW ltac:(rewrite app_nil_r; lia)). rewrite app_nil_r in R.
  assert (LX : ((off + 1 + List.length (w ++ (t' ++ u))) mod 8 = 0)%nat) by (rewrite EW; lia).
  split.
  - intros b HB. assert (X := block_complete (EofErr (EIo UnexpectedEof)) (off + 1) b w (t' ++ u) HB LX). rewrite EW, R in X. assert (Y : [] = t' ++ u) by congruence.
    destruct t'; [cbn [app] in Y; now apply NE|discriminate Y].
  - intros msg HW. destruct (block_wrong (EofErr (EIo UnexpectedEof)) (off + 1) msg w (t' ++ u) HW LX) as (b' & X). rewrite EW, R in X. discriminate X.
Qed.

Lemma stored_block_bytes final c : bytes_ok c -> bytes_ok (stored_block final c).
Proof. intro HC. unfold stored_block, le16_bytes, is_byte. cbn [app]. repeat (constructor; [unfold is_byte; destruct final; lia|]). exact HC. Qed.
Lemma stored_blocks_bytes chunks : Forall small_chunk chunks -> bytes_ok (flat_map (stored_block false) chunks).
Proof. induction 1 as [|c cs [HC _] _ IH]; cbn [flat_map]; [constructor|]. apply Forall_app. split; [now apply stored_block_bytes|exact IH]. Qed.
Lemma stored_block_length final c : List.length (stored_block final c) = (5 + List.length c)%nat.
Proof. reflexivity. Qed.

(** Whole blocks and a piece of another one. *)
Lemma piece_ends header done final c m : gzip_header header -> Forall small_chunk done -> small_chunk c -> (m < List.length (stored_block final c))%nat ->
  file_ends (header ++ flat_map (stored_block false) done ++ firstn m (stored_block final c)) (map Uncompressed done) RunsOut.
Proof.
  intros GH HD HC HM. apply (FE_short header _ _ (bits_of_bytes (flat_map (stored_block false) done)) (bits_of_bytes (firstn m (stored_block final c)))); [exact GH|apply bits_of_bytes_app|now apply leading_chunks|].
  apply cut_too_short; [|exact HC|exact HM]. rewrite bits_of_bytes_length. lia.
Qed.

Lemma cat_pieces file e room done : bytes_ok file -> file_ends file (map Uncompressed done) RunsOut ->
  exists out, cat_run (mkSource file e) (sink_with room) = (if fits room (flat_map (fun c => c) done) then Err (EIo e) else Err (EIo OtherIo), out)
    /\ written out = taken room (flat_map (fun c => c) done).
Proof.
  intros HB HE. destruct (C88_lemma_cat file e room _ _ (flat_map (fun c => c) done) true HB HE) as (out & E & W); [|eauto].
  constructor. unfold encodes. cbn [List.length app]. exact (decode_stored done []).
Qed.

Lemma refused_pieces : forall header chunks e, bytes_ok header -> gzip_header header -> Forall bytes_ok chunks ->
  (forall c, In c chunks -> N.of_nat (List.length c) < 65536) ->
  exists out, cat_run (mkSource (header ++ flat_map (stored_block false) chunks) e) new_sink = (Err (EIo e), out)
    /\ written out = flat_map (fun c => c) chunks.
Proof.
  intros header chunks e BH GH BC SC. assert (SM : Forall small_chunk chunks) by (apply Forall_forall; intros c HI; split; [now apply (proj1 (Forall_forall _ _) BC)|now apply SC]).
  assert (FE : file_ends (header ++ flat_map (stored_block false) chunks) (map Uncompressed chunks) RunsOut).
  { assert (X := piece_ends header chunks true [] 0 GH SM ltac:(split; [constructor|cbn; lia]) ltac:(cbn; lia)). rewrite firstn_O, app_nil_r in X. exact X. }
  destruct (cat_pieces (header ++ flat_map (stored_block false) chunks) e None chunks) as (out & E & W); [apply Forall_app; split; [exact BH|now apply stored_blocks_bytes]|exact FE|]. eauto.
Qed.

Lemma cut_stored chunks : chunks <> [] -> forall k, (k < List.length (stored_blocks chunks))%nat ->
  exists done c rest m, chunks = done ++ c :: rest /\ firstn k (stored_blocks chunks) = flat_map (stored_block false) done ++ firstn m (stored_block (is_nil rest) c)
    /\ k = (List.length (flat_map (stored_block false) done) + m)%nat /\ (m < List.length (stored_block (is_nil rest) c))%nat.
Proof.
  induction chunks as [|c cs IH]; intros NE k HK; [congruence|]. rewrite <- stored_blocks_eq in *. cbn [chunks_bytes] in *. rewrite chunk_block in *.
  destruct (Nat.lt_ge_cases k (List.length (stored_block (is_nil cs) c))) as [L|L].
  - exists [], c, cs, k. cbn [app flat_map List.length]. split; [reflexivity|]. split; [|split; [lia|exact L]].
    rewrite firstn_app. replace (k - _)%nat with O by lia. now rewrite firstn_O, app_nil_r.
  - destruct cs as [|c2 cs]; [exfalso; cbn [chunks_bytes is_nil] in *; rewrite app_nil_r in HK; lia|]. cbn [is_nil] in *. set (tl := c2 :: cs) in *.
    rewrite stored_blocks_eq in *. destruct (IH ltac:(discriminate) (k - List.length (stored_block false c))%nat) as (done & c' & r & m & E1 & E2 & E3 & E4); [rewrite app_length in HK; lia|].
    exists (c :: done), c', r, m. split; [cbn [app]; now rewrite <- E1|]. split; [|split; [cbn [flat_map]; rewrite app_length; lia|exact E4]].
    rewrite firstn_app, firstn_all2 by lia. rewrite E2. cbn [flat_map]. now rewrite app_assoc.
Qed.

Lemma C95_lemma_cut : forall header content chunks trailer k e, bytes_ok header -> gzip_header header -> bytes_ok content -> content <> [] -> chunks_of content chunks ->
  (forall c, In c chunks -> N.of_nat (List.length c) <> 65536) ->
  (k < List.length (header ++ stored_blocks chunks))%nat ->
  exists done next rest out, chunks = done ++ next :: rest
    /\ cat_run (mkSource (firstn k (header ++ stored_blocks chunks ++ trailer)) e) new_sink = (Err (EIo e), out)
    /\ written out = flat_map (fun c => c) done
    /\ (done = [] \/ (List.length (header ++ flat_map (stored_block false) done) <= k)%nat)
    /\ (k < List.length (header ++ flat_map (stored_block false) (done ++ [next])))%nat.
Proof.
  intros header content chunks trailer k e BH GH HB NE HC NL HK.
  destruct (C48_lemma content HB) as (chunks' & EC & EF & HA & _). unfold chunks_of in HC. rewrite HC in EC. injection EC as <-.
  assert (BC : Forall bytes_ok chunks) by (apply bytes_ok_flat; now rewrite EF).
  assert (SM : Forall small_chunk chunks).
  { apply Forall_forall. intros c HI. split; [now apply (proj1 (Forall_forall _ _) BC)|]. assert (X := proj1 (Forall_forall _ _) HA c HI). specialize (NL c HI). destruct X as (_ & X & _). lia. }
  assert (NC : chunks <> []) by (intros ->; cbn [flat_map] in EF; congruence).
  rewrite app_assoc, firstn_app. replace (k - _)%nat with O by lia. rewrite firstn_O, app_nil_r, firstn_app.
  destruct (Nat.lt_ge_cases k (List.length header)) as [L|L].
  - replace (k - List.length header)%nat with O by lia. rewrite firstn_O, app_nil_r. destruct chunks as [|c cs]; [congruence|].
    assert (FE : file_ends (firstn k header) (map Uncompressed []) RunsOut).
    { apply (FE_header_short (firstn k header) (skipn k header)); [now rewrite firstn_skipn| |].
      - rewrite <- (firstn_skipn k header) in BH. apply Forall_app in BH. apply BH.
      - intro X. apply (f_equal (@List.length N)) in X. rewrite skipn_length in X. cbn [List.length] in X. lia. }
    assert (BK : bytes_ok (firstn k header)) by (rewrite <- (firstn_skipn k header) in BH; apply Forall_app in BH; apply BH).
    destruct (cat_pieces _ e None [] BK FE) as (out & E & W).
    exists [], c, cs, out. split; [reflexivity|]. split; [exact E|]. split; [exact W|]. split; [now left|]. rewrite app_length. lia.
  - rewrite firstn_all2 by lia. rewrite app_length in HK.
    destruct (cut_stored chunks NC (k - List.length header) ltac:(lia)) as (done & c & r & m & E1 & E2 & E3 & E4). rewrite E2. rewrite E1 in SM. apply Forall_app in SM. destruct SM as [SD SR]. assert (SC := Forall_inv SR).
    assert (BF : bytes_ok (header ++ flat_map (stored_block false) done ++ firstn m (stored_block (is_nil r) c))).
    { apply Forall_app. split; [exact BH|]. apply Forall_app. split; [now apply stored_blocks_bytes|]. assert (X := stored_block_bytes (is_nil r) c (proj1 SC)). rewrite <- (firstn_skipn m (stored_block (is_nil r) c)) in X. apply Forall_app in X. apply X. }
    destruct (cat_pieces _ e None done BF (piece_ends header done (is_nil r) c m GH SD SC E4)) as (out & E & W).
    exists done, c, r, out. split; [exact E1|]. split; [exact E|]. split; [exact W|]. rewrite app_length, flat_map_app, !app_length. cbn [flat_map]. rewrite app_nil_r, !stored_block_length in *. split; [right; lia|]. lia.
Qed.

Lemma unfinished_bytes data chunks rest : bytes_ok data -> unfinished data chunks rest -> Forall bytes_ok chunks.
Proof. intros HB (ED & _). subst data. apply Forall_app in HB. now apply bytes_ok_flat. Qed.

Lemma C95_lemma_refused : forall (inflate : source -> byte_iter) file e header body data x more chunks rest, bytes_ok file ->
  discard_header (mkSource file e) = (Ok header, mkSource body e) ->
  inflate (mkSource body e) = map inl data ++ inr x :: more ->
  Forall (fun x => match x with inl b => b < 256 | inr _ => True end) (inflate (mkSource body e)) ->
  unfinished data chunks rest -> (forall c, In c chunks -> N.of_nat (List.length c) <> 65536) ->
  exists left, zero_run inflate (mkSource file e) new_sink = (Err (EIo x), mkSink left None)
    /\ forall e', exists out, cat_run (mkSource left e') new_sink = (Err (EIo e'), out) /\ written out = flat_map (fun c => c) chunks.
Proof.
  intros inflate file e header body data x more chunks rest HB EH EI HF HU NL. eexists. split; [eapply C95_lemma_error; eassumption|]. intro e'.
  destruct (C30_lemma _ _ _ _ EH) as (b & EQ & EF & _). apply C31_lemma in EH; [|assumption]. destruct EH as [_ GH]. rewrite EF in HB. apply Forall_app in HB.
  apply refused_pieces; [apply HB|exact GH| |].
  - apply (unfinished_bytes data chunks rest); [|exact HU]. rewrite EI in HF. apply Forall_app in HF. destruct HF as [HF _]. apply Forall_map in HF. exact HF.
  - intros c HI. destruct HU as (_ & HC & _). assert (X := proj1 (Forall_forall _ _) HC c HI). specialize (NL c HI). destruct X as (X & _). lia.
Qed.

(** ** A chunk that hides the end *)
Definition hiding_period : list N := [1; 0; 0; 255; 255] ++ repeat 0 (N.to_nat 8187).
Definition hiding : list N := hiding_period ++ hiding_period ++ hiding_period ++ hiding_period ++ hiding_period ++ hiding_period ++ hiding_period ++ hiding_period.
Lemma hiding_period_length : List.length hiding_period = N.to_nat 8192.
Proof. unfold hiding_period. rewrite app_length, repeat_length. cbn [List.length]. lia. Qed.
Lemma hiding_period_sum : sum_list hiding_period = 511.
Proof. unfold hiding_period. rewrite sum_app, sum_zeros. reflexivity. Qed.
Lemma hiding_period_bytes : bytes_ok hiding_period.
Proof. apply Forall_app. split; [repeat constructor|]. apply Forall_forall. intros y H. apply repeat_spec in H. subst. reflexivity. Qed.
Lemma hiding_length : List.length hiding = N.to_nat 65536.
Proof. unfold hiding. rewrite !app_length, hiding_period_length. lia. Qed.
Lemma hiding_bytes : bytes_ok hiding.
Proof. unfold hiding, bytes_ok. rewrite !Forall_app. assert (X := hiding_period_bytes). unfold bytes_ok in X. tauto. Qed.
Lemma hiding_sums n : (N.to_nat 8192 <= n <= List.length hiding)%nat -> ~ rsync_stop (firstn n hiding).
Proof.
  intro H. unfold rsync_stop. rewrite (window_periodic (N.to_nat 8192) hiding); [| lia | |exact H].
  - unfold hiding. rewrite firstn_app, hiding_period_length, Nat.sub_diag, firstn_O, app_nil_r, <- hiding_period_length, firstn_all, hiding_period_sum. discriminate.
  - intros i HI. set (most := hiding_period ++ hiding_period ++ hiding_period ++ hiding_period ++ hiding_period ++ hiding_period ++ hiding_period).
    assert (E1 : hiding = hiding_period ++ most) by reflexivity. assert (E2 : hiding = most ++ hiding_period) by (unfold hiding, most; now rewrite <- !app_assoc).
    rewrite E1 at 1. rewrite E2. rewrite app_nth2 by (rewrite hiding_period_length; lia). rewrite hiding_period_length, Nat.add_sub.
    rewrite app_nth1; [reflexivity|]. rewrite E2, app_length, hiding_period_length in HI. lia.
Qed.
Lemma hiding_unfinished : unfinished hiding [hiding] [].
Proof.
  assert (HL := hiding_length). split; [cbn [flat_map]; now rewrite !app_nil_r|]. split; [|split; [cbn [List.length]; lia|split; [intros n _ X; cbn [List.length] in X; lia|cbn [List.length]; lia]]].
  constructor; [|constructor]. split; [lia|]. split; [|left; lia]. intros n H1 H2. apply hiding_sums. lia.
Qed.

Lemma hiding_split : exists tail, hiding = [1; 0; 0; 255; 255] ++ tail.
Proof.
  assert (G : forall z p, ([1; 0; 0; 255; 255] ++ z) ++ p = [1; 0; 0; 255; 255] ++ z ++ p) by (intros z p; symmetry; apply app_assoc).
  unfold hiding. unfold hiding_period at 1. eexists. apply G.
Qed.

Lemma C95_lemma_refuted : exists content, bytes_ok content /\ forall (inflate : source -> byte_iter) file e header body x, bytes_ok file ->
  discard_header (mkSource file e) = (Ok header, mkSource body e) -> inflate (mkSource body e) = map inl content ++ [inr x] ->
  exists left, zero_run inflate (mkSource file e) new_sink = (Err (EIo x), mkSink left None)
    /\ forall e', cat_run (mkSource left e') new_sink = (Ok tt, mkSink [] None).
Proof.
  exists hiding. split; [exact hiding_bytes|]. intros inflate file e header body x HB EH EI. eexists. split.
  { eapply C95_lemma_error; [exact EH|exact EI| |exact hiding_unfinished]. rewrite EI. apply Forall_app. split; [apply Forall_map; exact hiding_bytes|repeat constructor]. }
  intro e'. destruct (C30_lemma _ _ _ _ EH) as (b & EQ & EF & _). apply C31_lemma in EH; [|assumption]. destruct EH as [_ GH]. rewrite EF in HB. apply Forall_app in HB.
  destruct hiding_split as (tail & ES). assert (BT : bytes_ok tail) by (assert (X := hiding_bytes); rewrite ES in X; apply Forall_app in X; apply X).
  assert (ET : flat_map (stored_block false) [hiding] = ([0; 0; 0; 255; 255] ++ [1; 0; 0; 255; 255]) ++ tail).
  { cbn [flat_map]. rewrite app_nil_r. unfold stored_block. rewrite hiding_length, N2Nat.id. change (65536 mod 65536) with 0. change (le16_bytes 0) with [0; 0]. change (le16_bytes (65535 - 0)) with [255; 255].
    rewrite ES. rewrite <- app_assoc. exact eq_refl. }
  rewrite ET.
  apply C47_lemma; [apply Forall_app; split; [apply HB|]; apply Forall_app; split; [repeat constructor|exact BT]|].
  exists header, ([0; 0; 0; 255; 255] ++ [1; 0; 0; 255; 255]), tail, [Uncompressed []; Uncompressed []]. split; [reflexivity|]. split; [exact GH|]. split; [|reflexivity].
  exact (stream_of_chunks [[]; []] ltac:(discriminate) ltac:(repeat (constructor; [split; [constructor|reflexivity]|]); constructor) 0%nat eq_refl).
Qed.

(** An output that takes [k] bytes. *)
Lemma C95_lemma_stopped : forall (inflate : source -> byte_iter) file e header body content chunks k e', bytes_ok file ->
  discard_header (mkSource file e) = (Ok header, mkSource body e) ->
  inflate (mkSource body e) = map inl content -> bytes_ok content -> content <> [] -> chunks_of content chunks ->
  (forall c, In c chunks -> N.of_nat (List.length c) <> 65536) ->
  (k < List.length (header ++ stored_blocks chunks))%nat ->
  exists left done next rest out, zero_run inflate (mkSource file e) (sink_with (Some k)) = (Err (EIo OtherIo), left)
    /\ chunks = done ++ next :: rest
    /\ cat_run (mkSource (written left) e') new_sink = (Err (EIo e'), out)
    /\ written out = flat_map (fun c => c) done
    /\ (done = [] \/ (List.length (header ++ flat_map (stored_block false) done) <= k)%nat)
    /\ (k < List.length (header ++ flat_map (stored_block false) (done ++ [next])))%nat.
Proof.
  intros inflate file e header body content chunks k e' HB EH EI BC NE HC NL HK.
  assert (EZ := C49_lemma_bytes inflate file e header body content chunks EH EI BC NE HC).
  assert (W := C49_lemma_writer inflate file e header body _ k EH ltac:(rewrite EI; apply Forall_map; exact BC) EZ).
  destruct (zero_run inflate (mkSource file e) (sink_with (Some k))) as [o left]. destruct W as [W ->].
  destruct (C30_lemma _ _ _ _ EH) as (b & EQ & EF & _). apply C31_lemma in EH; [|assumption]. destruct EH as [_ GH]. rewrite EF in HB. apply Forall_app in HB.
  set (trailer := le32_bytes (crc32 content) ++ _) in *.
  destruct (C95_lemma_cut header content chunks trailer k e' (proj1 HB) GH BC NE HC NL HK) as (done & next & rest & out & E1 & E2 & E3 & E4 & E5).
  exists left, done, next, rest, out. split.
  - f_equal. destruct (Nat.leb_spec (List.length (header ++ stored_blocks chunks ++ trailer)) k) as [L|]; [|reflexivity]. rewrite !app_length in *. lia.
  - rewrite W. auto.
Qed.

(** Whole zeros, then a short rest. *)
Lemma zeros_unfinished n : n = N.to_nat 8192 -> unfinished (repeat 0 n ++ [7; 8]) [repeat 0 n] [7; 8].
Proof.
  intros E. assert (L : N.of_nat n = 8192) by (subst n; apply N2Nat.id). clear E. split; [cbn [flat_map]; now rewrite app_nil_r|]. split.
  - constructor; [|constructor]. rewrite repeat_length, L. split; [lia|]. split.
    + intros m H1 H2. rewrite repeat_length in H2. lia.
    + right. unfold rsync_stop. rewrite lastn_repeat, sum_zeros. reflexivity.
  - split; [cbn [List.length]; lia|]. split; [intros m H1 H2; cbn [List.length] in H2; lia|cbn [List.length]; lia].
Qed.
