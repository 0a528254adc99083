(** Facts about [take_rsync]. *)
From Verif Require Import Base M_bit M_lib M_rezippers Spec Clients L_bits L_ring.
From Coq Require Import ZArith ZifyBool ZifyNat ZifyN.
Ltac Zify.zify_post_hook ::= Z.div_mod_to_equations.
Local Open Scope N_scope.
Local Open Scope model_scope.

(** What an iterator over [u8] can yield. *)
Definition item_ok (x : N + errkind) : Prop := match x with inl b => b < 256 | inr _ => True end.

Lemma sum_app a b : sum_list (a ++ b) = sum_list a + sum_list b.
Proof. unfold sum_list. induction a as [|x a IH]; cbn [app fold_right]; [lia|]. rewrite IH. lia. Qed.

Lemma sum_bound l : bytes_ok l -> sum_list l <= 255 * N.of_nat (List.length l).
Proof.
  unfold sum_list. induction 1 as [|x l H _ IH]; cbn [fold_right List.length]; [lia|]. unfold is_byte in H. lia.
Qed.

Lemma lastn_app_ge {A} n (a b : list A) : (n <= List.length b)%nat -> lastn n (a ++ b) = lastn n b.
Proof.
  intro H. unfold lastn. rewrite app_length, skipn_app. rewrite skipn_all2 by lia. cbn [app]. f_equal. lia.
Qed.

Lemma lastn_length {A} n (l : list A) : List.length (lastn n l) = Nat.min n (List.length l).
Proof. unfold lastn. rewrite skipn_length. lia. Qed.

Lemma lastn_bytes n l : bytes_ok l -> bytes_ok (lastn n l).
Proof. unfold lastn, bytes_ok. rewrite <- (firstn_skipn (List.length l - n) l) at 1. rewrite Forall_app. tauto. Qed.

(** Sliding the window by one byte. *)
Lemma window_slide k l x : (0 < k <= List.length l)%nat ->
  sum_list (lastn k (l ++ [x])) + nth (List.length l - k) l 0 = sum_list (lastn k l) + x.
Proof.
  intro H. destruct k as [|k]; [lia|]. rewrite (lastn_step l k) by lia.
  assert (E : lastn (S k) (l ++ [x]) = lastn k l ++ [x]).
  { unfold lastn. rewrite app_length. cbn [List.length]. rewrite skipn_app.
    replace (List.length l + 1 - S k)%nat with (List.length l - k)%nat by lia.
    replace (List.length l - k - List.length l)%nat with O by lia. reflexivity. }
  rewrite E, sum_app. unfold sum_list. cbn [fold_right]. lia.
Qed.

Lemma first_spec n : forall buf from, Forall item_ok from -> bytes_ok buf -> N.of_nat (List.length buf + n) < 2 ^ 32 ->
  exists part, match rsync_first n (sum_list buf) buf from with
  | (Ok (true, s, b), from') => from = map inl part ++ from' /\ List.length part = n /\ b = buf ++ part /\ s = sum_list b
  | (Ok (false, s, b), from') => from' = [] /\ from = map inl part /\ (List.length part < n)%nat /\ b = buf ++ part
  | (Err er, from') => exists e, er = EIo e /\ from = map inl part ++ inr e :: from' /\ (List.length part < n)%nat
  | _ => False
  end.
Proof.
  induction n as [|n IH]; intros buf from HF HB HL; cbn [rsync_first].
  - exists []. unfold ret. rewrite app_nil_r. auto.
  - destruct from as [|[x|e] from].
    + exists []. rewrite app_nil_r. cbn [List.length]. split; [reflexivity|]. split; [reflexivity|]. split; [lia|reflexivity].
    + inversion HF as [|y l HX HF']; subst. cbn [item_ok] in HX.
      assert (W : wrapping_add (sum_list buf) x = sum_list (buf ++ [x])).
      { assert (X := sum_bound buf HB). rewrite sum_app. unfold wrapping_add. unfold sum_list at 3. cbn [fold_right]. rewrite N.mod_small; lia. }
      rewrite W. destruct (IH (buf ++ [x]) from HF') as (part & E).
      { apply Forall_app. split; [assumption|]. constructor; [assumption|constructor]. }
      { rewrite app_length. cbn [List.length]. lia. }
      exists (x :: part). destruct (rsync_first n (sum_list (buf ++ [x])) (buf ++ [x]) from) as [[[[[|] s] b]|er|m|] from']; cbn [map app List.length]; try tauto.
      * destruct E as (-> & HL' & -> & ->). rewrite <- app_assoc. split; [reflexivity|]. split; [lia|]. split; reflexivity.
      * destruct E as (-> & -> & HL' & ->). rewrite <- app_assoc. split; [reflexivity|]. split; [reflexivity|]. split; [lia|reflexivity].
      * destruct E as (e & -> & -> & HL'). exists e. split; [reflexivity|]. split; [reflexivity|lia].
    + exists []. exists e. cbn [List.length]. split; [reflexivity|]. split; [reflexivity|lia].
Qed.

Lemma second_spec n : forall pos buf from, Forall item_ok from -> bytes_ok buf ->
  List.length buf = (N.to_nat 8192 + pos)%nat -> rsync_unbroken buf ->
  exists part, match rsync_second n pos (sum_list (lastn (N.to_nat 8192) buf)) buf from with
  | (Ok b, from') => from = map inl part ++ from' /\ b = buf ++ part /\ rsync_unbroken b
       /\ (List.length part <= n)%nat /\ (from' = [] \/ List.length part = n \/ rsync_stop b)
  | (Err er, from') => exists e, er = EIo e /\ from = map inl part ++ inr e :: from' /\ (List.length part < n)%nat
       /\ rsync_unbroken (buf ++ part) /\ ~ rsync_stop (buf ++ part)
  | _ => False
  end.
Proof.
  induction n as [|n IH]; intros pos buf from HF HB HL HU; cbn [rsync_second].
  - exists []. unfold ret. rewrite !app_nil_r. cbn [List.length map app]. split; [reflexivity|]. split; [reflexivity|]. split; [assumption|]. split; [lia|]. right. now left.
  - change RSYNC_MOD with 4096. destruct (N.eqb_spec 0 (sum_list (lastn (N.to_nat 8192) buf) mod 4096)) as [ES|ES].
    + exists []. unfold ret. rewrite !app_nil_r. cbn [List.length map app]. split; [reflexivity|]. split; [reflexivity|]. split; [assumption|].
      split; [lia|]. right. right. unfold rsync_stop. lia.
    + assert (NS : ~ rsync_stop buf) by (unfold rsync_stop; lia).
      destruct from as [|[x|e] from].
      * exists []. rewrite !app_nil_r. cbn [List.length map app]. split; [reflexivity|]. split; [reflexivity|]. split; [assumption|]. split; [lia|now left].
      * inversion HF as [|y l HX HF']; subst. cbn [item_ok] in HX.
        unfold get_idx. rewrite (nth_error_nth' buf 0) by lia.
        assert (WS := window_slide (N.to_nat 8192) buf x ltac:(lia)). replace (List.length buf - N.to_nat 8192)%nat with pos in WS by lia.
        assert (B1 := sum_bound _ (lastn_bytes (N.to_nat 8192) buf HB)). rewrite lastn_length in B1.
        assert (HB' : bytes_ok (buf ++ [x])) by (apply Forall_app; split; [assumption|]; constructor; [assumption|constructor]).
        assert (W : wrapping_sub (wrapping_add (sum_list (lastn (N.to_nat 8192) buf)) x) (nth pos buf 0) = sum_list (lastn (N.to_nat 8192) (buf ++ [x]))).
        { unfold wrapping_add, wrapping_sub.
          assert (B2 := sum_bound _ (lastn_bytes (N.to_nat 8192) (buf ++ [x]) HB')). rewrite lastn_length in B2.
          rewrite (N.mod_small (_ + x)) by lia.
          replace (sum_list (lastn (N.to_nat 8192) buf) + x + 2 ^ 64 - nth pos buf 0) with (sum_list (lastn (N.to_nat 8192) (buf ++ [x])) + 1 * 2 ^ 64) by lia.
          rewrite N.mod_add by lia. apply N.mod_small. lia. }
        rewrite W. destruct (IH (S pos) (buf ++ [x]) from HF' HB') as (part & E).
        { rewrite app_length. cbn [List.length]. lia. }
        { intros m H1 H2. rewrite app_length in H2. cbn [List.length] in H2. destruct (Nat.eq_dec m (List.length buf)) as [->|NE].
          - now rewrite firstn_app, Nat.sub_diag, firstn_all, firstn_O, app_nil_r.
          - rewrite firstn_app. replace (m - List.length buf)%nat with O by lia. rewrite firstn_O, app_nil_r. apply HU; lia. }
        exists (x :: part). destruct (rsync_second n (S pos) _ (buf ++ [x]) from) as [[b|er|m|] from']; cbn [map app List.length]; try tauto.
        -- destruct E as (-> & -> & H1 & H2 & H3). rewrite <- app_assoc in *. split; [reflexivity|]. split; [reflexivity|]. split; [exact H1|]. split; [lia|].
           destruct H3 as [H3|[H3|H3]]; auto.
        -- destruct E as (e & -> & -> & H1 & H2 & H3). exists e. rewrite <- app_assoc in *. split; [reflexivity|]. split; [reflexivity|]. split; [lia|]. auto.
      * exists []. exists e. rewrite !app_nil_r. cbn [List.length map app]. split; [reflexivity|]. split; [reflexivity|]. split; [lia|]. auto.
Qed.

Lemma items_app part from : Forall item_ok (map inl part ++ from) -> bytes_ok part /\ Forall item_ok from.
Proof.
  rewrite Forall_app. intros [H1 H2]. split; [|assumption]. apply Forall_forall. intros x HX. rewrite Forall_forall in H1.
  apply (H1 (inl x)), in_map, HX.
Qed.

Lemma take_spec from : Forall item_ok from ->
  match take_rsync from with
  | (Ok chunk, from') => from = map inl chunk ++ from' /\ N.of_nat (List.length chunk) <= 65536 /\ rsync_unbroken chunk
       /\ (from' = [] \/ 8192 <= N.of_nat (List.length chunk) /\ (N.of_nat (List.length chunk) = 65536 \/ rsync_stop chunk))
  | (Err er, from') => exists e part, er = EIo e /\ from = map inl part ++ inr e :: from'
       /\ N.of_nat (List.length part) < 65536 /\ rsync_unbroken part /\ (8192 <= N.of_nat (List.length part) -> ~ rsync_stop part)
  | _ => False
  end.
Proof.
  intro HF. unfold take_rsync, bind. destruct (first_spec (N.to_nat RSYNC_MIN) [] from HF ltac:(constructor)) as (part & E).
  { change RSYNC_MIN with 8192. cbn [List.length]. lia. }
  change (sum_list []) with 0 in E. change RSYNC_MIN with 8192 in *. change (RSYNC_MAX - 8192) with 57344.
  assert (US : forall l : list N, (List.length l <= N.to_nat 8192)%nat -> rsync_unbroken l) by (intros l HL m H1 H2; lia).
  destruct (rsync_first (N.to_nat 8192) 0 [] from) as [[[[[|] s] b]|er|m|] from']; try tauto.
  - destruct E as (-> & HL & -> & ->). cbn [app]. apply items_app in HF. destruct HF as [HP HF].
    destruct (second_spec (N.to_nat 57344) O part from' HF HP ltac:(lia) (US part ltac:(lia))) as (part2 & E2).
    replace (lastn (N.to_nat 8192) part) with part in E2 by (unfold lastn; rewrite HL, Nat.sub_diag; reflexivity).
    destruct (rsync_second (N.to_nat 57344) 0 (sum_list part) part from') as [[b2|er|m|] from2]; try tauto.
    + destruct E2 as (-> & -> & H1 & H2 & H3). rewrite map_app, <- app_assoc. split; [reflexivity|]. rewrite app_length. split; [lia|]. split; [exact H1|].
      destruct H3 as [H3|[H3|H3]]; [now left| |]; right; (split; [lia|]); [left; lia|now right].
    + destruct E2 as (e & -> & -> & H1 & H2 & H3). exists e, (part ++ part2). split; [reflexivity|]. rewrite map_app, <- app_assoc. split; [reflexivity|].
      rewrite app_length. split; [lia|]. auto.
  - destruct E as (-> & -> & HL & ->). unfold ret. cbn [app]. rewrite app_nil_r. split; [reflexivity|]. split; [lia|]. split; [apply US; lia|now left].
  - destruct E as (e & -> & -> & HL). exists e, part. split; [reflexivity|]. split; [reflexivity|]. split; [lia|]. split; [apply US; lia|lia].
Qed.

Lemma map_inl_inj (a b : list N) : map (@inl N errkind) a = map inl b -> a = b.
Proof. revert b. induction a as [|x a IH]; intros [|y b] E; try discriminate; [reflexivity|]. injection E as -> E. f_equal. auto. Qed.

Lemma split_inl (a b : list N) from : map (@inl N errkind) a = map inl b ++ from -> exists c, a = b ++ c /\ from = map inl c.
Proof.
  revert a. induction b as [|y b IH]; intros a E; cbn [map app] in E.
  - exists a. auto.
  - destruct a as [|x a]; [discriminate|]. injection E as -> E. destruct (IH _ E) as (c & -> & ->). exists c. auto.
Qed.

(** The chunks of a whole input. *)
Inductive chunked : list (list N) -> Prop :=
| ch_nil : chunked []
| ch_last c : c <> [] -> N.of_nat (List.length c) <= 65536 -> rsync_unbroken c -> chunked [c]
| ch_more c cs : cs <> [] -> N.of_nat (List.length c) <= 65536 -> rsync_unbroken c ->
    8192 <= N.of_nat (List.length c) -> (N.of_nat (List.length c) = 65536 \/ rsync_stop c) -> chunked cs -> chunked (c :: cs).

Lemma take_all_spec fuel : forall bytes, bytes_ok bytes -> (List.length bytes < fuel)%nat ->
  exists chunks, take_all fuel (map inl bytes) = Ok chunks /\ flat_map (fun c => c) chunks = bytes /\ chunked chunks.
Proof.
  induction fuel as [|fuel IH]; intros bytes HB HL; [lia|]. cbn [take_all].
  assert (HF : Forall item_ok (map inl bytes)) by (apply Forall_map; exact HB). assert (T := take_spec _ HF).
  destruct (take_rsync (map inl bytes)) as [[chunk|er|m|] from'].
  - destruct T as (E & H1 & H2 & H3). destruct (split_inl _ _ _ E) as (c & -> & ->).
    destruct chunk as [|x chunk].
    + exists []. split; [reflexivity|]. cbn [flat_map app]. split; [|constructor]. destruct H3 as [H3|[H3 _]]; [|cbn [List.length] in H3; lia].
      destruct c; [reflexivity|discriminate].
    + unfold bytes_ok in HB. rewrite Forall_app in HB. destruct HB as [HB1 HB2]. destruct (IH c HB2) as (chunks & EC & EF & CH).
      { rewrite app_length in HL. cbn [List.length] in HL. lia. }
      rewrite EC. cbn [obind]. exists ((x :: chunk) :: chunks). split; [reflexivity|]. cbn [flat_map]. rewrite EF. split; [reflexivity|].
      destruct H3 as [H3|[H3 H4]].
      * destruct c; [|discriminate]. assert (chunks = []) as ->.
        { destruct chunks as [|c0 cs]; [reflexivity|]. cbn [flat_map] in EF. destruct c0; [|discriminate]. inversion CH; [congruence|]. cbn [List.length] in *. lia. }
        constructor; auto. discriminate.
      * destruct chunks as [|c0 cs]; [constructor; auto; discriminate|]. constructor; auto. discriminate.
  - exfalso. destruct T as (e & part & _ & E & _). destruct (split_inl _ _ _ E) as (c & _ & EC). destruct c; discriminate.
  - destruct T.
  - destruct T.
Qed.

Lemma chunked_all chunks : chunked chunks -> Forall (fun c => c <> [] /\ N.of_nat (List.length c) <= 65536 /\ rsync_unbroken c) chunks.
Proof. induction 1; constructor; auto. split; [|auto]. intros ->. cbn [List.length] in *. lia. Qed.

Lemma chunked_most chunks : chunked chunks -> forall before c after, chunks = before ++ c :: after -> after <> [] ->
  8192 <= N.of_nat (List.length c) /\ (N.of_nat (List.length c) = 65536 \/ rsync_stop c).
Proof.
  induction 1 as [|c0 H1 H2 H3|c0 cs H1 H2 H3 H4 H5 CH IH]; intros before c after E NE.
  - destruct before; discriminate.
  - destruct before as [|b [|b2 before]]; cbn in E; try discriminate. injection E as _ E. subst after. congruence.
  - destruct before as [|b before]; cbn [app] in E; injection E as -> E; [subst; auto|]. eauto.
Qed.
