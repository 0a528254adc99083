(** Proofs of C48, C49. *)
From Verif Require Import Base M_bit M_lib M_circles M_gzip M_parse M_serialise M_rezippers Spec Clients
  L_bits L_ring L_parse L_P_circ L_P_parse L_P_gzip L_rsync L_P_rez.
From Coq Require Import ZArith ZifyBool ZifyNat ZifyN.
Ltac Zify.zify_post_hook ::= Z.div_mod_to_equations.
Local Open Scope N_scope.
Local Open Scope model_scope.

Local Opaque take_rsync.

(** ** C48 *)
Lemma C48_lemma : forall bytes, bytes_ok bytes ->
  exists chunks, take_all (S (List.length bytes)) (map inl bytes) = Ok chunks
    /\ flat_map (fun c => c) chunks = bytes
    /\ Forall (fun c => c <> [] /\ N.of_nat (List.length c) <= 65536 /\ rsync_unbroken c) chunks
    /\ forall before c after, chunks = before ++ c :: after -> after <> [] ->
         8192 <= N.of_nat (List.length c) /\ (N.of_nat (List.length c) = 65536 \/ rsync_stop c).
Proof.
  intros bytes HB. destruct (take_all_spec (S (List.length bytes)) bytes HB ltac:(lia)) as (chunks & E1 & E2 & CH).
  exists chunks. split; [exact E1|]. split; [exact E2|]. split; [now apply chunked_all|now apply chunked_most].
Qed.

Lemma C48_lemma_step : forall from, Forall (fun x => match x with inl b => b < 256 | inr _ => True end) from ->
  match take_rsync from with
  | (Ok chunk, from') => from = map inl chunk ++ from' /\ N.of_nat (List.length chunk) <= 65536 /\ rsync_unbroken chunk
       /\ (from' = [] \/ 8192 <= N.of_nat (List.length chunk) /\ (N.of_nat (List.length chunk) = 65536 \/ rsync_stop chunk))
  | (Err er, from') => exists e part, er = EIo e /\ from = map inl part ++ inr e :: from'
       /\ N.of_nat (List.length part) < 65536 /\ rsync_unbroken part /\ (8192 <= N.of_nat (List.length part) -> ~ rsync_stop part)
  | _ => False
  end.
Proof. exact take_spec. Qed.

(** ** C49 *)
Lemma crc_bits_steps n : forall c b, b < 2 ^ N.of_nat n -> crc_bits n (N.lxor c b) = fold_left crc_step (lsb n b) c.
Proof.
  induction n as [|n IH]; intros c b H.
  - cbn [crc_bits]. rewrite lsb_0. cbn [fold_left]. replace b with 0 by (cbn in H; lia). now rewrite N.lxor_0_r.
  - rewrite lsb_S. cbn [crc_bits fold_left].
    assert (HB : b / 2 < 2 ^ N.of_nat n) by (rewrite Nat2N.inj_succ, N.pow_succ_r' in H; lia).
    rewrite <- (IH _ _ HB). f_equal. unfold crc_step. rewrite <- !N.bit0_odd, N.lxor_spec, N.shiftr_lxor.
    replace (N.shiftr b 1) with (b / 2) by (rewrite N.shiftr_div_pow2; reflexivity).
    destruct (xorb (N.testbit c 0) (N.testbit b 0)); [|reflexivity].
    rewrite !N.lxor_assoc. f_equal. apply N.lxor_comm.
Qed.

Lemma crc_update_steps bs : bytes_ok bs -> forall c, crc_update c bs = fold_left crc_step (bits_of_bytes bs) c.
Proof.
  unfold crc_update. induction 1 as [|b bs HB _ IH]; intro c; [reflexivity|]. rewrite bits_of_bytes_cons, fold_left_app.
  cbn [fold_left]. rewrite IH. f_equal. apply crc_bits_steps. exact HB.
Qed.

Lemma crc32_update bs : bytes_ok bs -> crc_finalize (crc_update crc_digest bs) = crc32 bs.
Proof. intro H. unfold crc_finalize, crc32, crc_digest. now rewrite crc_update_steps. Qed.

Lemma le_bytes_2 v : v < 65536 -> le_bytes 2 v = le16_bytes v.
Proof.
  intro H. unfold le_bytes, le16_bytes. cbn [seq map]. change (256 ^ N.of_nat 0) with 1. change (256 ^ N.of_nat 1) with 256.
  rewrite N.div_1_r, (N.mod_small (v / 256)) by lia. reflexivity.
Qed.

Lemma le_bytes_4 v : le_bytes 4 v = le32_bytes v.
Proof.
  unfold le_bytes, le32_bytes. cbn [seq map]. change (256 ^ N.of_nat 0) with 1. change (256 ^ N.of_nat 1) with 256.
  change (256 ^ N.of_nat 2) with 65536. change (256 ^ N.of_nat 3) with 16777216. now rewrite N.div_1_r.
Qed.

Lemma lxor_16 v : v < 65536 -> N.lxor v 65535 = 65535 - v.
Proof.
  intro H. change 65535 with (N.ones 16). change (N.lxor v (N.ones 16)) with (N.lnot v 16). apply N.lnot_sub_low.
  destruct (N.eq_dec v 0) as [->|NZ]; [reflexivity|]. apply N.log2_lt_pow2; lia.
Qed.

(** What the loop writes for the given chunks. *)
Definition chunk_bytes (final : bool) (c : list N) : list N :=
  let len := N.of_nat (List.length c) mod 65536 in
  [if final then 1 else 0] ++ le16_bytes len ++ le16_bytes (65535 - len) ++ c.
Fixpoint chunks_bytes (chunks : list (list N)) : list N :=
  match chunks with
  | [] => []
  | c :: cs => chunk_bytes (is_nil cs) c ++ chunks_bytes cs
  end.

Definition putb (bs : list N) : M (byte_iter * sink) unit := zoom snd (fun s (st : byte_iter * sink) => (fst st, s)) (write_all bs).
Lemma putb_eq bs r o : putb bs (r, o) = (fst (write_all bs o), (r, snd (write_all bs o))).
Proof. unfold putb, zoom. cbn [snd fst]. now destruct (write_all bs o). Qed.

(** Writing [bs] and then doing [k]. *)
Lemma putb_then {A} bs (k : M (byte_iter * sink) A) r o :
  (putb bs ;;; k) (r, o) = match write_all bs o with
                           | (Ok _, o') => k (r, o') | (Err e, o') => (Err e, (r, o'))
                           | (Panic m, o') => (Panic m, (r, o')) | (Diverge, o') => (Diverge, (r, o')) end.
Proof. unfold bind. rewrite putb_eq. destruct (write_all bs o) as [[]]; reflexivity. Qed.

Lemma putb_app {A} a b (k : M (byte_iter * sink) A) st : (putb a ;;; putb b ;;; k) st = (putb (a ++ b) ;;; k) st.
Proof.
  destruct st as [r o]. rewrite !putb_then, write_all_app. destruct (write_all a o) as [[] o1]; try reflexivity. now rewrite putb_then.
Qed.

Lemma zero_loop_S fuel dl cs from out : zero_loop (S fuel) dl cs (from, out) =
  match take_rsync from with
  | (Ok buf, reader) =>
      if is_nil buf then (Ok (dl, cs), (reader, out))
      else (putb (chunk_bytes (is_nil reader) buf) ;;;
            zero_loop fuel ((dl + N.of_nat (List.length buf)) mod 2 ^ 32) (crc_update cs buf)) (reader, out)
  | (Err e, reader) => (Err e, (reader, out))
  | (Panic m, reader) => (Panic m, (reader, out))
  | (Diverge, reader) => (Diverge, (reader, out))
  end.
Proof.
  cbn [zero_loop fst snd]. destruct (take_rsync from) as [[buf|e|m|] reader]; try reflexivity.
  destruct (is_nil buf); [reflexivity|]. fold (putb [if negb (is_nil reader) then 0 else 1]).
  set (len := N.of_nat (List.length buf) mod 65536). assert (HL : len < 65536) by (unfold len; lia).
  fold (putb (le_bytes 2 len)) (putb (le_bytes 2 (N.lxor len 65535))) (putb buf).
  rewrite !putb_app, <- !app_assoc. unfold chunk_bytes. fold len. rewrite lxor_16, !le_bytes_2 by lia.
  destruct (is_nil reader); reflexivity.
Qed.

Lemma take_all_S fuel from : take_all (S fuel) from =
  match take_rsync from with
  | (Ok chunk, from') =>
      match chunk with
      | [] => Ok []
      | _ => chunks <-? take_all fuel from' ;; Ok (chunk :: chunks)
      end
  | (Err e, _) => Err e
  | (Panic m, _) => Panic m
  | (Diverge, _) => Diverge
  end.
Proof. reflexivity. Qed.

Lemma take_all_nil from fuel chunks : Forall item_ok from -> take_all fuel from = Ok chunks -> is_nil from = is_nil chunks.
Proof.
  intros HF E. destruct fuel as [|fuel]; [discriminate|]. rewrite take_all_S in E. assert (T := take_spec from HF).
  destruct (take_rsync from) as [[c|e|m|] r]; try discriminate. destruct T as (-> & T). destruct c as [|y c].
  - injection E as <-. destruct T as (_ & _ & [->|[H _]]); [reflexivity|cbn [List.length] in H; lia].
  - destruct (take_all fuel r); try discriminate. now injection E as <-.
Qed.

Definition total_len (chunks : list (list N)) : N := N.of_nat (List.length (flat_map (fun c => c) chunks)).

Lemma zero_loop_ok fuel : forall (from : byte_iter) chunks dl cs out, Forall item_ok from -> dl < 2 ^ 32 -> take_all fuel from = Ok chunks ->
  from = map inl (flat_map (fun c => c) chunks)
  /\ exists r, zero_loop fuel dl cs (from, out) =
    match write_all (chunks_bytes chunks) out with
    | (Ok _, o) => (Ok ((dl + total_len chunks) mod 2 ^ 32, crc_update cs (flat_map (fun c => c) chunks)), (r, o))
    | (Err e, o) => (Err e, (r, o)) | (Panic m, o) => (Panic m, (r, o)) | (Diverge, o) => (Diverge, (r, o))
    end.
Proof.
  induction fuel as [|fuel IH]; intros from chunks dl cs out HF HD E; [discriminate|]. rewrite zero_loop_S. rewrite take_all_S in E.
  assert (T := take_spec from HF). destruct (take_rsync from) as [[c|e|m|] r]; try discriminate.
  destruct T as (-> & T). apply items_app in HF. destruct HF as [HC HF]. destruct c as [|x c].
  - injection E as <-. cbn [is_nil chunks_bytes flat_map crc_update fold_left map app]. rewrite write_all_nil.
    destruct T as (_ & _ & [->|[H _]]); [|cbn [List.length] in H; lia].
    split; [reflexivity|]. exists []. unfold total_len. cbn [flat_map List.length]. rewrite N.add_0_r, N.mod_small by assumption. reflexivity.
  - destruct (take_all fuel r) as [chunks'| | |] eqn:ER; try discriminate. injection E as <-.
    remember (x :: c) as ch eqn:Ech. assert (NN : is_nil ch = false) by (subst; reflexivity). rewrite NN, putb_then.
    rewrite (take_all_nil _ _ _ HF ER). cbn [chunks_bytes flat_map]. rewrite write_all_app, map_app.
    destruct (IH r chunks' ((dl + N.of_nat (List.length ch)) mod 2 ^ 32) (crc_update cs ch) (snd (write_all (chunk_bytes (is_nil chunks') ch) out)) HF ltac:(apply N.mod_lt; lia) ER) as [E1 (r' & E2)].
    rewrite <- E1. split; [reflexivity|].
    destruct (write_all (chunk_bytes (is_nil chunks') ch) out) as [[u|e|m|] o]; cbn [snd] in *.
    + exists r'. etransitivity; [exact E2|]. replace (((dl + N.of_nat (List.length ch)) mod 2 ^ 32 + total_len chunks') mod 2 ^ 32) with ((dl + total_len (ch :: chunks')) mod 2 ^ 32).
      * replace (crc_update (crc_update cs ch) (flat_map (fun c => c) chunks')) with (crc_update cs (ch ++ flat_map (fun c => c) chunks')) by apply fold_left_app. reflexivity.
      * unfold total_len. cbn [flat_map]. rewrite app_length, N.add_mod_idemp_l by lia. f_equal. lia.
    + eauto.
    + eauto.
    + eauto.
Qed.

Lemma zero_loop_err fuel : forall (from : byte_iter) dl cs out er, take_all fuel from = Err er ->
  exists er' st, zero_loop fuel dl cs (from, out) = (Err er', st).
Proof.
  induction fuel as [|fuel IH]; intros from dl cs out er E; [discriminate|]. rewrite zero_loop_S. rewrite take_all_S in E.
  destruct (take_rsync from) as [[c|e|m|] r]; try discriminate; [|eauto]. destruct c as [|x c]; [discriminate|].
  cbn [is_nil]. rewrite putb_then. destruct (take_all fuel r) eqn:ER; try discriminate.
  assert (W := write_all_or (chunk_bytes (is_nil r) (x :: c)) out).
  destruct (write_all (chunk_bytes (is_nil r) (x :: c)) out) as [o1 o2]. cbn [fst] in W. destruct W as [->| ->]; [|eauto]. eauto.
Qed.

Lemma take_all_total fuel : forall (from : byte_iter), Forall item_ok from -> (List.length from < fuel)%nat ->
  (exists chunks, take_all fuel from = Ok chunks) \/ (exists e, take_all fuel from = Err (EIo e) /\ In (inr e) from).
Proof.
  induction fuel as [|fuel IH]; intros from HF HL; [lia|]. rewrite take_all_S. assert (T := take_spec from HF).
  destruct (take_rsync from) as [[c|e|m|] r]; try tauto.
  - destruct T as (-> & _). destruct c as [|x c]; [eauto|]. apply items_app in HF. destruct HF as [_ HF].
    destruct (IH r HF) as [(cs & ->)|(e & -> & HI)]; [rewrite app_length in HL; cbn [map List.length] in HL; lia|left; cbn [obind]; eauto|].
    right. exists e. split; [reflexivity|]. apply in_or_app. now right.
  - right. destruct T as (e0 & part & -> & -> & _). exists e0. split; [reflexivity|]. apply in_or_app. right. now left.
Qed.

(** The whole command. *)
Lemma zero_run_ok (inflate : source -> byte_iter) file e header body (from : byte_iter) chunks out :
  discard_header (mkSource file e) = (Ok header, mkSource body e) ->
  inflate (mkSource body e) = from -> from <> [] -> Forall item_ok from ->
  take_all (S (List.length from)) from = Ok chunks ->
  let content := flat_map (fun c => c) chunks in
  bytes_ok content /\ from = map inl content
  /\ zero_run inflate (mkSource file e) out
     = write_all (header ++ chunks_bytes chunks ++ le32_bytes (crc32 content) ++ le32_bytes (N.of_nat (List.length content) mod 2 ^ 32)) out.
Proof.
  intros EH EI NE HF ET. cbn zeta. destruct (zero_loop_ok (S (List.length from)) from chunks 0 crc_digest (snd (write_all header out)) HF ltac:(lia) ET) as [EF (r & EL)].
  assert (HC : bytes_ok (flat_map (fun c => c) chunks)).
  { rewrite EF in HF. rewrite <- (app_nil_r (map inl _)) in HF. apply items_app in HF. apply HF. }
  split; [exact HC|]. split; [exact EF|]. unfold zero_run. rewrite EH, EI.
  assert (NN : is_nil from = false) by (destruct from; [congruence|reflexivity]). rewrite NN.
  fold (putb header). cbn zeta. rewrite putb_then, write_all_app. destruct (write_all header out) as [[u|er|m|] o1]; try reflexivity. cbn [snd] in EL. rewrite write_all_app.
  unfold bind at 1. rewrite EL. destruct (write_all (chunks_bytes chunks) o1) as [[u2|er|m|] o2]; try reflexivity. rewrite write_all_app.
  rewrite (crc32_update _ HC), !le_bytes_4. fold (putb (le32_bytes (crc32 (flat_map (fun c => c) chunks)))). rewrite putb_then, N.add_0_l.
  destruct (write_all (le32_bytes (crc32 (flat_map (fun c => c) chunks))) o2) as [[u3|er|m|] o3]; try reflexivity.
  unfold total_len. fold (putb (le32_bytes (N.of_nat (List.length (flat_map (fun c => c) chunks)) mod 2 ^ 32))). rewrite putb_eq.
  destruct (write_all _ o3) as [[]]; reflexivity.
Qed.

Lemma block_of_chunk off final c : (off mod 8 = 0)%nat -> bytes_ok c -> N.of_nat (List.length c) < 65536 ->
  exists w, bits_of_bytes (chunk_bytes final c) = final :: w /\ block_bits (off + 1) (Uncompressed c) w /\ (List.length w mod 8 = 7)%nat.
Proof.
  intros HO HC HL. unfold chunk_bytes. rewrite (N.mod_small (N.of_nat _)) by assumption. set (n := N.of_nat (List.length c)).
  exists (lsb 2 0 ++ repeat false 5 ++ bits_of_bytes (le16_bytes n ++ le16_bytes (65535 - n) ++ c)). split; [destruct final; reflexivity|]. split.
  - constructor; auto. split; lia.
  - rewrite !app_length, lsb_length, repeat_length, bits_of_bytes_length. lia.
Qed.

Lemma stream_of_chunks chunks : chunks <> [] -> Forall (fun c => bytes_ok c /\ N.of_nat (List.length c) < 65536) chunks ->
  forall off, (off mod 8 = 0)%nat -> stream_bits off (map Uncompressed chunks) (bits_of_bytes (chunks_bytes chunks)).
Proof.
  induction chunks as [|c cs IH]; intros NE HF off HO; [congruence|]. inversion HF as [|c0 l0 [HC HL] HF']; subst.
  destruct (block_of_chunk off (is_nil cs) c HO HC HL) as (w & EW & BW & LW). cbn [chunks_bytes map]. rewrite bits_of_bytes_app, EW.
  destruct cs as [|c2 cs].
  - cbn [is_nil chunks_bytes map]. change (bits_of_bytes []) with (repeat false 0). apply SB_last; [exact BW|]. split; lia.
  - cbn [is_nil]. apply SB_more; [discriminate|exact BW|]. apply IH; [discriminate|assumption|lia].
Qed.

Lemma chunks_bytes_ok chunks : Forall bytes_ok chunks -> bytes_ok (chunks_bytes chunks).
Proof.
  induction 1 as [|c cs HC _ IH]; cbn [chunks_bytes]; [constructor|]. apply Forall_app. split; [|exact IH]. unfold chunk_bytes, le16_bytes, is_byte.
  cbn [app]. repeat (constructor; [unfold is_byte; destruct (is_nil cs); lia|]). exact HC.
Qed.

Lemma bytes_ok_flat chunks : bytes_ok (flat_map (fun c => c) chunks) -> Forall bytes_ok chunks.
Proof. induction chunks as [|c cs IH]; cbn [flat_map]; [constructor|]. intro H. apply Forall_app in H. constructor; [apply H|apply IH, H]. Qed.

Lemma decode_stored chunks : forall h, lz_decode 32768 h (flat_map block_codes (map Uncompressed chunks)) = Some (h ++ flat_map (fun c => c) chunks).
Proof.
  induction chunks as [|c cs IH]; intro h; cbn [map flat_map block_codes]; [cbn [lz_decode]; now rewrite app_nil_r|].
  rewrite lz_decode_app, lz_literals, IH. now rewrite app_assoc.
Qed.

Lemma C49_lemma : forall (inflate : source -> byte_iter) file e header body content chunks,
  discard_header (mkSource file e) = (Ok header, mkSource body e) ->
  inflate (mkSource body e) = map inl content -> bytes_ok content -> content <> [] ->
  take_all (S (List.length content)) (map inl content) = Ok chunks ->
  (forall c, In c chunks -> N.of_nat (List.length c) <> 65536) ->
  exists stream,
    zero_run inflate (mkSource file e) new_sink
    = (Ok tt, mkSink (header ++ stream ++ le32_bytes (crc32 content) ++ le32_bytes (N.of_nat (List.length content) mod 2 ^ 32)) None)
    /\ encodes [] content (flat_map block_codes (map Uncompressed chunks))
    /\ forall tail e', bytes_ok tail -> exists it,
         parse_all (mkSource (stream ++ tail) e') = (Ok (map Uncompressed chunks), it)
         /\ br_into_inner (bi_inner it) = Ok (mkSource tail e').
Proof.
  intros inflate file e header body content chunks EH EI HB NE ET NC.
  assert (HF : Forall item_ok (map inl content)) by (apply Forall_map; exact HB).
  destruct (zero_run_ok inflate file e header body (map inl content) chunks new_sink EH EI) as (HC & EF & EZ); auto.
  { destruct content; [congruence|discriminate]. } { now rewrite map_length. }
  apply map_inl_inj in EF. rewrite <- EF in *. exists (chunks_bytes chunks). split; [exact EZ|]. split; [rewrite EF; exact (decode_stored chunks [])|].
  assert (BC : Forall bytes_ok chunks) by (apply bytes_ok_flat; now rewrite <- EF).
  intros tail e' HT. apply parse_all_iff; [apply Forall_app; split; [now apply chunks_bytes_ok|exact HT]|].
  exists (chunks_bytes chunks). split; [reflexivity|]. apply stream_of_chunks; [| |reflexivity].
  - intros ->. cbn in EF. congruence.
  - destruct (C48_lemma content HB) as (chunks' & ET' & _ & FC & _). assert (chunks' = chunks) as -> by congruence.
    rewrite Forall_forall in *. intros c HI. split; [auto|]. destruct (FC c HI) as (_ & L & _). assert (X := NC c HI). lia.
Qed.

Lemma C49_lemma_total : forall (inflate : source -> byte_iter) file e header body out,
  discard_header (mkSource file e) = (Ok header, mkSource body e) ->
  Forall (fun x => match x with inl b => b < 256 | inr _ => True end) (inflate (mkSource body e)) ->
  inflate (mkSource body e) <> [] ->
  returns (fst (zero_run inflate (mkSource file e) out))
  /\ ((exists x, In (inr x) (inflate (mkSource body e))) -> exists er, fst (zero_run inflate (mkSource file e) out) = Err er).
Proof.
  intros inflate file e header body out EH HF NE. remember (inflate (mkSource body e)) as from eqn:EI. symmetry in EI.
  destruct (take_all_total (S (List.length from)) from HF ltac:(lia)) as [(chunks & ET)|(x & ET & HI)].
  - destruct (zero_run_ok inflate file e header body from chunks out EH EI NE HF ET) as (HC & EF & EZ). rewrite EZ. split.
    + destruct (write_all_or (header ++ chunks_bytes chunks ++ le32_bytes (crc32 (flat_map (fun c => c) chunks)) ++ le32_bytes (N.of_nat (List.length (flat_map (fun c => c) chunks)) mod 2 ^ 32)) out) as [->| ->]; exact I.
    + intros (x & HI). exfalso. rewrite EF in HI. apply in_map_iff in HI. destruct HI as (y & HY & _). discriminate.
  - assert (X : exists er, fst (zero_run inflate (mkSource file e) out) = Err er).
    { unfold zero_run. rewrite EH, EI. assert (NN : is_nil from = false) by (destruct from; [congruence|reflexivity]). rewrite NN.
      fold (putb header). cbn zeta. rewrite putb_then. assert (W := write_all_or header out). destruct (write_all header out) as [ow o1]. cbn [fst] in W.
      destruct W as [->| ->]; [|cbn [fst]; eauto]. unfold bind at 1.
      destruct (zero_loop_err _ _ 0 crc_digest o1 _ ET) as (er & [r o] & EL). rewrite EL. cbn [fst]. eauto. }
    split; [destruct X as (er & ->); exact I|auto].
Qed.

Lemma C49_lemma_writer : forall (inflate : source -> byte_iter) file e header body all k,
  discard_header (mkSource file e) = (Ok header, mkSource body e) ->
  Forall (fun x => match x with inl b => b < 256 | inr _ => True end) (inflate (mkSource body e)) ->
  zero_run inflate (mkSource file e) new_sink = (Ok tt, mkSink all None) ->
  let '(o, out) := zero_run inflate (mkSource file e) (sink_with (Some k)) in
  written out = firstn k all /\ o = if Nat.leb (List.length all) k then Ok tt else Err (EIo OtherIo).
Proof.
  intros inflate file e header body all k EH HF EZ. remember (inflate (mkSource body e)) as from eqn:EI. symmetry in EI.
  assert (NE : from <> []). { intros ->. unfold zero_run in EZ. rewrite EH, EI in EZ. discriminate. }
  destruct (take_all_total (S (List.length from)) from HF ltac:(lia)) as [(chunks & ET)|(x & ET & HI)].
  - destruct (zero_run_ok inflate file e header body from chunks new_sink EH EI NE HF ET) as (_ & _ & E1).
    destruct (zero_run_ok inflate file e header body from chunks (sink_with (Some k)) EH EI NE HF ET) as (_ & _ & E2).
    match type of E1 with _ = write_all ?b _ => set (big := b) in *; clearbody big end.
    rewrite E2. rewrite E1, write_all_free in EZ. injection EZ as ->.
    unfold write_all, sink_with. cbn [room written app]. destruct (Nat.leb_spec (List.length all) k); cbn [written]; [|auto]. split; [now rewrite firstn_all2|reflexivity].
  - exfalso. destruct (C49_lemma_total inflate file e header body new_sink EH) as [_ X]; [now rewrite EI|now rewrite EI|].
    destruct X as (er & X); [rewrite EI; eauto|]. rewrite EZ in X. discriminate.
Qed.

(** ** The refutation *)
Lemma window_periodic k l : (0 < k)%nat -> (forall i, (i + k < List.length l)%nat -> nth (i + k) l 0 = nth i l 0) ->
  forall n, (k <= n <= List.length l)%nat -> sum_list (lastn k (firstn n l)) = sum_list (firstn k l).
Proof.
  intros HK HP n. induction n as [|n IH]; intro H; [lia|]. destruct (Nat.eq_dec k (S n)) as [->|NE].
  - unfold lastn. rewrite firstn_length. replace (Nat.min (S n) (List.length l) - S n)%nat with O by lia. reflexivity.
  - assert (F : firstn (S n) l = firstn n l ++ [nth n l 0]).
    { rewrite <- (firstn_skipn n l) at 1. rewrite firstn_app, firstn_length, firstn_firstn.
      replace (Nat.min (S n) n) with n by lia. f_equal. replace (S n - Nat.min n (List.length l))%nat with 1%nat by lia.
      rewrite (skipn_nth l n (nth n l 0)) by (apply nth_error_nth'; lia). reflexivity. }
    rewrite F. assert (W := window_slide k (firstn n l) (nth n l 0)). rewrite firstn_length in W. specialize (W ltac:(lia)).
    replace (Nat.min n (List.length l) - k)%nat with (n - k)%nat in W by lia.
    assert (N1 : nth (n - k) (firstn n l) 0 = nth (n - k) l 0).
    { rewrite <- (firstn_skipn n l) at 2. rewrite app_nth1; [reflexivity|]. rewrite firstn_length. lia. }
    assert (N2 := HP (n - k)%nat ltac:(lia)). replace (n - k + k)%nat with n in N2 by lia. rewrite <- IH by lia. lia.
Qed.

Definition period : list N := 1 :: repeat 0 (N.to_nat 8191).
Definition stubborn : list N := period ++ period ++ period ++ period ++ period ++ period ++ period ++ period.

Lemma period_length : List.length period = N.to_nat 8192.
Proof. unfold period. cbn [List.length]. rewrite repeat_length. lia. Qed.
Lemma period_sum : sum_list period = 1.
Proof. unfold period, sum_list. cbn [fold_right]. induction (N.to_nat 8191) as [|n IH]; cbn [repeat fold_right]; [reflexivity|]. lia. Qed.
Lemma period_bytes : bytes_ok period.
Proof. constructor; [reflexivity|]. apply Forall_forall. intros x H. apply repeat_spec in H. subst. reflexivity. Qed.

Lemma stubborn_sums n : (N.to_nat 8192 <= n <= List.length stubborn)%nat -> ~ rsync_stop (firstn n stubborn).
Proof.
  intro H. unfold rsync_stop. rewrite (window_periodic (N.to_nat 8192) stubborn); [| lia | |exact H].
  - unfold stubborn. rewrite firstn_app, period_length, Nat.sub_diag, firstn_O, app_nil_r, <- period_length, firstn_all, period_sum. discriminate.
  - intros i HI. set (most := period ++ period ++ period ++ period ++ period ++ period ++ period).
    assert (E1 : stubborn = period ++ most) by reflexivity. assert (E2 : stubborn = most ++ period) by (unfold stubborn, most; now rewrite <- !app_assoc).
    rewrite E1 at 1. rewrite E2. rewrite app_nth2 by (rewrite period_length; lia). rewrite period_length, Nat.add_sub.
    rewrite app_nth1; [reflexivity|]. rewrite E2, app_length, period_length in HI. lia.
Qed.

Lemma stubborn_length : List.length stubborn = N.to_nat 65536.
Proof. unfold stubborn. rewrite !app_length, period_length. lia. Qed.
Lemma stubborn_bytes : bytes_ok stubborn.
Proof. unfold stubborn, bytes_ok. rewrite !Forall_app. assert (X := period_bytes). unfold bytes_ok in X. tauto. Qed.

Lemma stubborn_chunk : take_all (S (List.length (map (@inl N errkind) stubborn))) (map inl stubborn) = Ok [stubborn].
Proof.
  destruct (take_all_spec (S (List.length (map (@inl N errkind) stubborn))) stubborn stubborn_bytes) as (chunks & E & EF & CH); [rewrite map_length; lia|].
  rewrite E. f_equal. assert (SL := stubborn_length). destruct chunks as [|c cs].
  - cbn [flat_map] in EF. rewrite <- EF in SL. cbn [List.length] in SL. lia.
  - cbn [flat_map] in EF. destruct cs as [|c2 cs]; [cbn [flat_map] in EF; rewrite app_nil_r in EF; now subst|exfalso].
    assert (CA := chunked_all _ CH). destruct (chunked_most _ CH [] c (c2 :: cs) eq_refl ltac:(discriminate)) as [L ST].
    assert (FC : c = firstn (List.length c) stubborn) by (rewrite <- EF; now rewrite firstn_app, firstn_all, Nat.sub_diag, firstn_O, app_nil_r).
    assert (LE := f_equal (@List.length N) EF). rewrite app_length in LE. inversion CA as [|x1 x2 (A1 & A2 & A3) CA']; subst x1 x2.
    inversion CA' as [|x1 x2 (B1 & _) _]; subst x1 x2. cbn [flat_map] in LE. rewrite app_length in LE. destruct c2; [congruence|]. cbn [List.length] in LE.
    destruct ST as [ST|ST]; [lia|]. rewrite FC in ST. apply stubborn_sums in ST; [exact ST|]. lia.
Qed.

Lemma empty_then tail e : bytes_ok tail -> exists it, parse_all (mkSource ([1; 0; 0; 255; 255] ++ tail) e) = (Ok [Uncompressed []], it).
Proof.
  intro HT. destruct (proj2 (parse_all_iff ([1; 0; 0; 255; 255] ++ tail) e [Uncompressed []] tail ltac:(apply Forall_app; split; [repeat constructor|exact HT]))) as (it & E & _); [|eauto].
  exists [1; 0; 0; 255; 255]. split; [reflexivity|]. apply (stream_of_chunks [[]]); [discriminate| |reflexivity]. repeat constructor.
Qed.

Lemma C49_lemma_refuted : exists content, bytes_ok content /\ content <> []
  /\ forall (inflate : source -> byte_iter) file e header body,
     discard_header (mkSource file e) = (Ok header, mkSource body e) ->
     inflate (mkSource body e) = map inl content ->
     exists stream, zero_run inflate (mkSource file e) new_sink = (Ok tt, mkSink (header ++ stream) None)
       /\ forall e', exists it, parse_all (mkSource stream e') = (Ok [Uncompressed []], it).
Proof.
  exists stubborn. split; [exact stubborn_bytes|]. split; [discriminate|]. intros inflate file e header body EH EI.
  assert (HF : Forall item_ok (map inl stubborn)) by (apply Forall_map; exact stubborn_bytes).
  destruct (zero_run_ok inflate file e header body (map inl stubborn) [stubborn] new_sink EH EI ltac:(discriminate) HF stubborn_chunk) as (_ & _ & EZ).
  eexists. split; [exact EZ|]. intro e'.
  assert (CB : chunks_bytes [stubborn] = [1; 0; 0; 255; 255] ++ stubborn).
  { cbn [chunks_bytes is_nil]. unfold chunk_bytes. rewrite stubborn_length, N2Nat.id. rewrite app_nil_r. reflexivity. }
  assert (BL : forall v, bytes_ok (le32_bytes v)) by (intro v; unfold le32_bytes; repeat (constructor; [unfold is_byte; lia|]); constructor).
  rewrite CB, <- app_assoc. apply empty_then. apply Forall_app. split; [exact stubborn_bytes|]. apply Forall_app. split; apply BL.
Qed.

(** A run of zeros is cut as soon as a chunk may end. *)
Lemma lastn_repeat {A} (x : A) k n : lastn k (repeat x n) = repeat x (Nat.min k n).
Proof.
  unfold lastn. rewrite repeat_length. replace n with ((n - k) + Nat.min k n)%nat at 2 by lia. rewrite repeat_app, skipn_app, repeat_length, Nat.sub_diag.
  rewrite skipn_all2 by (rewrite repeat_length; lia). reflexivity.
Qed.

Lemma sum_zeros n : sum_list (repeat 0 n) = 0.
Proof. induction n as [|n IH]; [reflexivity|]. change (0 + sum_list (repeat 0 n) = 0). now rewrite IH. Qed.

Lemma zeros_chunk rest : bytes_ok rest -> rest <> [] ->
  take_rsync (map inl (repeat 0 (N.to_nat 8192) ++ rest)) = (Ok (repeat 0 (N.to_nat 8192)), map inl rest).
Proof.
  intros HR HN. set (z := repeat 0 (N.to_nat 8192)). assert (LZ : List.length z = N.to_nat 8192) by apply repeat_length.
  assert (SZ : rsync_stop z) by (unfold rsync_stop, z; rewrite lastn_repeat, sum_zeros; reflexivity).
  assert (HF : Forall item_ok (map inl (z ++ rest))).
  { apply Forall_map. apply Forall_app. split; [|exact HR]. apply Forall_forall. intros x HX. apply repeat_spec in HX. subst x. reflexivity. }
  assert (T := take_spec _ HF). destruct (take_rsync (map inl (z ++ rest))) as [[c|er|m|] r]; try tauto.
  - destruct T as (E & L1 & U & ST). destruct (split_inl _ _ _ E) as (c' & E' & ->).
    assert (LC : (N.to_nat 8192 <= List.length c)%nat).
    { destruct ST as [ST|[ST _]]; [|lia]. apply map_eq_nil in ST. subst c'. rewrite app_nil_r in E'. rewrite <- E', app_length. lia. }
    destruct (Nat.eq_dec (List.length c) (N.to_nat 8192)) as [LE|LN].
    + assert (EC : c = z /\ c' = rest).
      { apply (f_equal (firstn (N.to_nat 8192))) in E' as E1. apply (f_equal (skipn (N.to_nat 8192))) in E'.
        rewrite !firstn_app in E1. rewrite !skipn_app in E'. rewrite LZ, LE, Nat.sub_diag in *. cbn [firstn skipn] in *.
        rewrite !app_nil_r in E1. rewrite !firstn_all2 in E1 by lia. rewrite !skipn_all2 in E' by lia. cbn [app] in E'. auto. }
      destruct EC as [-> ->]. reflexivity.
    + exfalso. apply (U (N.to_nat 8192) ltac:(lia) ltac:(lia)). replace (firstn (N.to_nat 8192) c) with z; [exact SZ|].
      apply (f_equal (firstn (N.to_nat 8192))) in E'. rewrite !firstn_app, LZ, Nat.sub_diag in E'.
      replace (N.to_nat 8192 - List.length c)%nat with O in E' by lia. cbn [firstn] in E'. rewrite !app_nil_r in E'. rewrite <- E'. symmetry. apply firstn_all2. lia.
  - destruct T as (e & part & _ & E & _). exfalso.
    assert (X : In (inr e) (map (@inl N errkind) (z ++ rest))) by (rewrite E; apply in_or_app; right; now left).
    apply in_map_iff in X. destruct X as (y & X & _). discriminate.
Qed.
