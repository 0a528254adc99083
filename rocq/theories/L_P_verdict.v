(** Proofs for C88: what the commands find in any file. *)
From Verif Require Import Base M_bit M_lib M_code_tree M_huffman M_circles M_gzip M_parse M_serialise M_rezippers M_dump M_text M_io M_main Spec Clients Clients_file Clients_io Clients_main Clients_wrong Clients_verdict
  L_bits L_reader L_writer L_bitprops L_gzip L_stored L_tree L_huff L_header L_ring L_safe L_parse L_P_parse L_P_gzip L_P_rez L_P_file L_P_main L_wrong L_P_wrong.
From Coq Require Import ZArith ZifyBool ZifyNat ZifyN.
Ltac Zify.zify_post_hook ::= Z.div_mod_to_equations.
Local Open Scope N_scope.
Local Open Scope model_scope.

(** ** Headers *)
Lemma small_flags flg : flg < 256 -> (N.land flg 224 = 0 <-> flg < 32) /\ ((N.testbit flg 5 = false /\ N.testbit flg 6 = false /\ N.testbit flg 7 = false) <-> flg < 32).
Proof.
  intro H. assert (A : forallb (fun f => Bool.eqb (N.land f 224 =? 0) (f <? 32) && Bool.eqb (negb (N.testbit f 5) && negb (N.testbit f 6) && negb (N.testbit f 7)) (f <? 32)) (map N.of_nat (seq 0 256)) = true) by (vm_compute; reflexivity).
  rewrite forallb_forall in A. specialize (A flg). rewrite andb_true_iff, !Bool.eqb_true_iff in A.
  destruct A as [A1 A2]; [apply in_map_iff; exists (N.to_nat flg); split; [lia|apply in_seq; lia]|].
  split; [lia|]. rewrite <- N.ltb_lt, <- A2, !andb_true_iff, !negb_true_iff. tauto.
Qed.

Lemma ten (bytes : list N) : (10 <= List.length bytes)%nat -> exists a b c d more tail, bytes = [a; b; c; d] ++ more ++ tail /\ List.length more = 6%nat.
Proof.
  intro H. do 4 (destruct bytes as [|? bytes]; [cbn in H; lia|]). cbn [List.length] in H.
  exists n, n0, n1, n2, (firstn 6 bytes), (skipn 6 bytes). rewrite firstn_skipn, firstn_length. split; [reflexivity|lia].
Qed.

(** Fields that only fail for want of bytes, and that some more bytes complete. *)
Definition comp (m : list N -> M source (list N)) (P : list N -> Prop) : Prop :=
  adds m P /\ (exists u, bytes_ok u /\ P u)
  /\ forall whole b e er s, bytes_ok b -> m whole (mkSource b e) = (Err er, s) -> er = EIo e /\ exists more, bytes_ok more /\ more <> [] /\ P (b ++ more).

Lemma zeros_ok n : bytes_ok (repeat 0 n).
Proof. apply Forall_forall. intros x HX. apply repeat_spec in HX. subst x. reflexivity. Qed.

Lemma comp_hcrc : comp read_hcrc (fun s => List.length s = 2%nat).
Proof.
  split; [exact adds_hcrc|]. split; [exists [0; 0]; split; [repeat constructor|reflexivity]|].
  intros whole b e er s HB E. unfold read_hcrc in E. apply bind_msg in E. destruct E as [E|(x & s1 & _ & E)]; [|discriminate E].
  unfold read_exact in E. cbn [rest at_end] in E. destruct (Nat.leb_spec 2 (List.length b)); [discriminate E|]. injection E as <- <-. split; [reflexivity|].
  exists (repeat 0 (2 - List.length b)). split; [apply zeros_ok|]. split; [|rewrite app_length, repeat_length; lia].
  intro X. apply (f_equal (@List.length _)) in X. rewrite repeat_length in X. cbn [List.length] in X. lia.
Qed.

Lemma comp_extra : comp read_extra extra_raw.
Proof.
  split; [exact adds_extra|]. split; [exists [0; 0]; split; [repeat constructor|exists 0, 0, []; split; reflexivity]|].
  intros whole b e er s HB E. unfold read_extra in E. apply bind_msg in E. destruct E as [E|(x & s1 & E1 & E)].
  - unfold read_exact in E. cbn [rest at_end] in E. destruct (Nat.leb_spec 2 (List.length b)); [discriminate E|]. injection E as <- <-. split; [reflexivity|].
    destruct b as [|lo [|]]; [| |cbn in *; lia].
    + exists [0; 0]. split; [repeat constructor|]. split; [discriminate|]. exists 0, 0, []. split; reflexivity.
    + exists (0 :: repeat 0 (N.to_nat lo)). split; [constructor; [reflexivity|apply zeros_ok]|]. split; [discriminate|].
      exists lo, 0, (repeat 0 (N.to_nat lo)). split; [reflexivity|]. rewrite repeat_length, N.shiftl_0_l, N.lor_0_l. lia.
  - unfold read_exact in E1. cbn [rest at_end] in E1. destruct (Nat.leb_spec 2 (List.length b)); [|discriminate E1]. injection E1 as <- <-.
    destruct b as [|lo [|hi b]]; try (cbn in *; lia). cbn [firstn skipn nth] in E.
    apply bind_msg in E. destruct E as [E|(x & s1 & _ & E)]; [|discriminate E].
    unfold read_exact in E. cbn [rest at_end] in E. destruct (Nat.leb_spec (N.to_nat (N.lor (N.shiftl hi 8) lo)) (List.length b)); [discriminate E|]. injection E as <- <-. split; [reflexivity|].
    set (L := N.lor (N.shiftl hi 8) lo) in *. exists (repeat 0 (N.to_nat L - List.length b)). split; [apply zeros_ok|]. split.
    + intro X. apply (f_equal (@List.length _)) in X. rewrite repeat_length in X. cbn [List.length] in X. lia.
    + exists lo, hi, (b ++ repeat 0 (N.to_nat L - List.length b)). split; [reflexivity|]. fold L. rewrite app_length, repeat_length. lia.
Qed.

Lemma comp_null : comp read_null_terminated zero_terminated.
Proof.
  split; [exact adds_null|]. split; [exists [0]; split; [repeat constructor|exists []; split; [reflexivity|intros []]]|].
  intros whole b e er s HB E. unfold read_null_terminated in E. cbn [rest] in E. rewrite null_loop_ok in E by lia.
  destruct (find _ _) as [i|] eqn:F; [discriminate E|]. injection E as <- <-. split; [reflexivity|].
  exists [0]. split; [repeat constructor|]. split; [discriminate|]. exists b. split; [reflexivity|]. intro HI.
  apply (In_nth _ _ 1) in HI. destruct HI as (j & Hj & E). assert (X := find_none _ _ F j). cbn beta in X. rewrite E in X.
  assert (Y := X ltac:(apply in_seq; lia)). discriminate Y.
Qed.

Lemma comp_if (c : bool) m P : comp m P -> comp (fun whole => if c then m whole else ret whole) (optional c P).
Proof.
  intros (A & I & C). split; [apply (adds_if c m P A)|]. destruct c; cbn [optional]; [auto|]. split; [exists []; split; [constructor|reflexivity]|].
  intros whole b e er s _ E. discriminate E.
Qed.

Lemma comp_seq m1 m2 P1 P2 : comp m1 P1 -> comp m2 P2 ->
  comp (fun whole => x <- m1 whole ;; m2 x) (fun u => exists a b, u = a ++ b /\ P1 a /\ P2 b).
Proof.
  intros (A1 & (u1 & B1 & I1) & C1) (A2 & (u2 & B2 & I2) & C2). split; [now apply adds_seq|]. split.
  - exists (u1 ++ u2). split; [apply Forall_app; split; assumption|]. eauto 6.
  - intros whole b e er s HB E. apply bind_msg in E. destruct E as [E|(x & s1 & E1 & E)].
    + destruct (C1 _ _ _ _ _ HB E) as (-> & more & M1 & M2 & M3). split; [reflexivity|]. exists (more ++ u2). split; [apply Forall_app; split; assumption|].
      split; [destruct more; [congruence|discriminate]|]. exists (b ++ more), u2. rewrite app_assoc. auto.
    + destruct (A1 whole) as [M G]. assert (MM := M b e). rewrite E1 in MM. destruct MM as (used & tail & -> & EB & _).
      apply G in E1. destruct E1 as (used' & EB' & -> & H1). rewrite EB in EB'. apply app_inv_tail in EB'. subst used'. rewrite EB in HB. apply Forall_app in HB.
      destruct (C2 _ _ _ _ _ (proj2 HB) E) as (-> & more & M1 & M2 & M3). split; [reflexivity|]. exists more. split; [assumption|]. split; [assumption|].
      exists used, (tail ++ more). rewrite EB, app_assoc. auto.
Qed.

Lemma comp_fields flags : comp (fun whole =>
    whole <- (if has_bit flags 2 then read_extra whole else ret whole) ;;
    whole <- (if has_bit flags 3 then read_null_terminated whole else ret whole) ;;
    whole <- (if has_bit flags 4 then read_null_terminated whole else ret whole) ;;
    (if has_bit flags 1 then read_hcrc whole else ret whole)) (header_fields flags).
Proof.
  destruct (comp_seq _ _ _ _ (comp_if (has_bit flags 2) _ _ comp_extra)
    (comp_seq _ _ _ _ (comp_if (has_bit flags 3) _ _ comp_null)
      (comp_seq _ _ _ _ (comp_if (has_bit flags 4) _ _ comp_null) (comp_if (has_bit flags 1) _ _ comp_hcrc)))) as (A & (u & B & I) & C).
  assert (G : forall u, (exists a b, u = a ++ b /\ optional (has_bit flags 2) extra_raw a /\
       (exists a0 b0, b = a0 ++ b0 /\ optional (has_bit flags 3) zero_terminated a0 /\
          (exists a1 b1, b0 = a1 ++ b1 /\ optional (has_bit flags 4) zero_terminated a1 /\ optional (has_bit flags 1) (fun s => List.length s = 2%nat) b1))) -> header_fields flags u).
  { intros v (e & r1 & -> & H1 & n & r2 & -> & H2 & c & h & -> & H3 & H4). exists e, n, c, h. auto. }
  split; [apply adds_fields|]. split; [exists u; split; [assumption|]; apply G; exact I|].
  intros whole b e er s HB E. destruct (C _ _ _ _ _ HB E) as (-> & more & M1 & M2 & M3). split; [reflexivity|]. exists more. split; [assumption|]. split; [assumption|]. apply G. exact M3.
Qed.

Lemma header_err bytes e er s : bytes_ok bytes -> discard_header (mkSource bytes e) = (Err er, s) ->
  (exists msg start tail, er = EMsg msg /\ bytes = start ++ tail /\ wrong_start msg start)
  \/ er = EIo e /\ ((List.length bytes < 10)%nat \/ exists more, bytes_ok more /\ more <> [] /\ gzip_header (bytes ++ more)).
Proof.
  intros HB E. unfold discard_header in E. apply bind_msg in E. destruct E as [E|(h & s1 & E1 & E)].
  { right. unfold read_exact in E. cbn [rest at_end] in E. destruct (Nat.leb_spec 10 (List.length bytes)); [discriminate E|]. injection E as <- _. split; [reflexivity|]. left. assumption. }
  assert (L : (10 <= List.length bytes)%nat).
  { unfold read_exact in E1. cbn [rest at_end] in E1. destruct (Nat.leb_spec 10 (List.length bytes)) as [L|]; [exact L|discriminate E1]. }
  destruct (ten bytes L) as (a & b & c & d & more & tail & -> & LM).
  assert (L10 : List.length ([a; b; c; d] ++ more) = 10%nat) by (rewrite app_length, LM; reflexivity).
  rewrite (proj2 (gspec_read_exact 10 _ e ([a; b; c; d] ++ more) tail)) in E1 by (exists ([a; b; c; d] ++ more); rewrite <- app_assoc; auto).
  inversion E1; subst h s1. clear E1. cbn [app nth] in E. assert (HB' := HB).
  unfold bytes_ok in HB. rewrite !Forall_app in HB. destruct HB as [HB [_ HT]].
  assert (D : d < 256) by (inversion HB as [|? ? _ HB1]; inversion HB1 as [|? ? _ HB2]; inversion HB2 as [|? ? _ HB3]; now inversion HB3).
  apply bind_msg in E. destruct E as [E|([] & s2 & E1 & E)].
  { left. unfold ensure in E. destruct (_ && _) eqn:C in E; [discriminate E|]. inversion E; subst. exists "invalid magic"%string, ([a; b; c; d] ++ more), tail.
    split; [reflexivity|]. split; [reflexivity|]. apply (WT_magic a b (c :: d :: more)); [cbn; lia|lia]. }
  unfold ensure in E1. destruct (_ && _) eqn:C in E1; [|discriminate E1]. assert (a = 31 /\ b = 139) as [-> ->] by lia. injection E1 as <-. clear C.
  apply bind_msg in E. destruct E as [E|([] & s3 & E1 & E)].
  { left. unfold ensure in E. destruct (_ =? _) eqn:C in E; [discriminate E|]. inversion E; subst. eexists _, ([31; 139; c; d] ++ more), tail.
    split; [reflexivity|]. split; [reflexivity|]. apply (WT_method c (d :: more)); [cbn; lia|lia]. }
  unfold ensure in E1. destruct (_ =? _) eqn:C in E1; [|discriminate E1]. assert (c = 8) as -> by lia. injection E1 as <-. clear C.
  apply bind_msg in E. destruct E as [E|([] & s4 & E1 & E)].
  { left. unfold ensure in E. destruct (_ =? _) eqn:C in E; [discriminate E|]. inversion E; subst. eexists _, ([31; 139; 8; d] ++ more), tail.
    split; [reflexivity|]. split; [reflexivity|]. apply (WT_flags d more); [lia|]. destruct (small_flags d D) as [I _]. lia. }
  unfold ensure in E1. destruct (_ =? _) eqn:C in E1; [|discriminate E1]. injection E1 as <-.
  right. destruct (comp_fields d) as (_ & _ & K). destruct (K _ _ _ _ _ HT E) as (-> & ext & M1 & M2 & M3). split; [reflexivity|]. right.
  exists ext. split; [assumption|]. split; [assumption|]. apply header_same.
  - apply Forall_app. split; assumption.
  - exists ([31; 139; 8; d] ++ more), (tail ++ ext). rewrite <- !app_assoc. split; [reflexivity|]. split; [rewrite app_length, LM; reflexivity|]. cbn [app nth]. auto.
Qed.

Lemma start_refused msg start tail e : bytes_ok start -> wrong_start msg start -> fst (discard_header (mkSource (start ++ tail) e)) = Err (EMsg msg).
Proof.
  intros HB HW. unfold discard_header.
  assert (L : List.length start = 10%nat) by (destruct HW; rewrite app_length; cbn [List.length]; lia).
  assert (E1 : read_exact 10 (mkSource (start ++ tail) e) = (Ok start, mkSource tail e)) by (apply gspec_read_exact; eauto).
  rewrite (bind_ok _ _ _ _ _ E1). cbn zeta. destruct HW as [id1 id2 more LM NM|cm more LM NM|flg more LM NM]; cbn [app nth].
  - unfold bind, ensure. destruct (_ && _) eqn:C; [lia|]. reflexivity.
  - change ((31 =? 31) && (139 =? 139)) with true. replace (8 =? cm) with false by lia. reflexivity.
  - change ((31 =? 31) && (139 =? 139)) with true. change (8 =? 8) with true.
    assert (flg < 256) by (inversion HB as [|? ? _ HB1]; inversion HB1 as [|? ? _ HB2]; inversion HB2 as [|? ? _ HB3]; now inversion HB3).
    destruct (small_flags flg ltac:(assumption)) as [I _]. replace (0 =? N.land flg 224) with false by lia. reflexivity.
Qed.

(** ** Streams *)
Lemma drain_io e fuel : forall off bs it it', at_bits e bs it -> ((off + List.length bs) mod 8 = 0)%nat -> bi_end it = false ->
  bi_drain fuel it = (Err (EIo e), it') -> exists blocks w t, bs = w ++ t /\ leading off blocks w /\ too_short (off + List.length w) t.
Proof.
  induction fuel as [|fuel IH]; intros off bs it it' HA HO HE E; [discriminate E|].
  destruct it as [r en]. cbn [bi_end] in HE. subst en. unfold at_bits in HA. cbn [bi_inner] in HA.
  cbn [bi_drain] in E. unfold bind at 1, bi_next at 1 in E. cbn [bi_end bi_inner] in E.
  destruct (sim_br_read_bit e _ _ HA) as (r1 & E1 & R1). rewrite E1 in E.
  destruct bs as [|fin bs]; cbn [rbl fst snd eof_out] in *.
  { exists [], [], []. split; [reflexivity|]. split; [constructor|]. intros last w t' X. discriminate X. }
  cbn [List.length] in *.
  destruct (sim_read_block e _ _ R1) as (r2 & E2 & R2). rewrite E2 in E.
  destruct (lb_read_block (EofErr (EIo e)) bs) as [o b2] eqn:EB. cbn [fst snd] in *.
  destruct o as [b|er| |]; try discriminate E.
  2:{ injection E as -> _. exists [], [], (fin :: bs). split; [reflexivity|]. split; [constructor|]. cbn [List.length]. rewrite Nat.add_0_r.
      intros last w t' X. injection X as -> ->. split.
      - intros b HB. rewrite (block_complete _ (off + 1) b w) in EB; [discriminate EB|assumption|rewrite app_length in *; lia].
      - intros msg HW. destruct (block_wrong (EofErr (EIo e)) (off + 1) msg w t' HW ltac:(lia)) as (b3 & EB'). rewrite EB' in EB. discriminate EB. }
  apply (block_sound _ (off + 1)) in EB; [|lia]. destruct EB as (w & -> & HB & WF). rewrite app_length in *.
  apply bind_msg in E. destruct E as [E|(more & i2 & _ & E)]; [|discriminate E]. destruct fin.
  - destruct fuel as [|fuel]; [discriminate E|]. cbn [bi_drain] in E.
    unfold bind at 1, bi_next at 1 in E. cbn [bi_end bi_inner] in E.
    destruct (br_align r2) as [o r3] eqn:EA. destruct o as [u|er| |]; try discriminate E. injection E as -> _.
    destruct (align_errs _ _ _ _ _ R2 EA) as (s & X). discriminate X.
  - apply (IH (off + 1 + List.length w)%nat b2) in E; [|exact R2|lia|reflexivity].
    destruct E as (bl & ws & t & -> & HS & HT). exists (b :: bl), (false :: w ++ ws), t. split; [cbn [app]; now rewrite <- app_assoc|].
    split; [now constructor|]. cbn [List.length]. rewrite app_length. replace (off + S (List.length w + List.length ws))%nat with (off + 1 + List.length w + List.length ws)%nat by lia. exact HT.
Qed.

Lemma next_short e off blocks w : leading off blocks w -> forall t it,
  at_bits e (w ++ t) it -> bi_end it = false -> ((off + List.length (w ++ t)) mod 8 = 0)%nat -> too_short (off + List.length w) t ->
  fst (call_next (List.length blocks + 1) it) = map (fun b => Ok (Some b)) blocks ++ [Err (EIo e)]
  /\ forall fuel, (List.length blocks < fuel)%nat -> fst (bi_drain fuel it) = Err (EIo e).
Proof.
  induction 1 as [off|off b bs w ws HB HS IH]; intros t it HA HE HO HT; destruct it as [r en]; cbn [bi_end bi_inner] in *; subst en; unfold at_bits in *; cbn [bi_inner] in HA.
  - cbn [app List.length] in *. rewrite Nat.add_0_r in HT. destruct (sim_br_read_bit e _ _ HA) as (r1 & E1 & R1).
    assert (X : exists it', bi_next (mkBlockIter r false) = (Err (EIo e), it')).
    { unfold bi_next. cbn [bi_end bi_inner]. rewrite E1. destruct t as [|fin t]; cbn [rbl fst snd eof_out] in *; [eauto|].
      destruct (sim_read_block e _ _ R1) as (r2 & E2 & R2). rewrite E2.
      assert (SF := safe_block (EIo e) t). destruct (lb_read_block (EofErr (EIo e)) t) as [o b2] eqn:EB. cbn [fst snd] in *. cbn [List.length] in HO.
      destruct o as [b|er| |].
      - exfalso. apply (block_sound _ (off + 1)) in EB; [|lia]. destruct EB as (w & -> & HB & _). exact (proj1 (HT fin w b2 eq_refl) b HB).
      - assert (EB' := EB). apply ioe_block in EB. destruct EB as [(s & ->)|[_ EK]].
        + exfalso. apply (block_msg _ (off + 1)) in EB'; [|apply no_msg_io|lia]. destruct EB' as (w & t' & -> & HW). exact (proj2 (HT fin w t' eq_refl) s HW).
        + injection EK as <-. eauto.
      - exfalso. cbn in SF. tauto.
      - exfalso. cbn in SF. tauto. }
    destruct X as (it' & X). cbn [List.length Nat.add call_next map app]. rewrite X. split; [reflexivity|].
    intros [|fuel] HF; [lia|]. cbn [bi_drain]. unfold bind at 1. rewrite X. reflexivity.
  - cbn [app] in HA. destruct (sim_br_read_bit e _ _ HA) as (r1 & E1 & R1). cbn [rbl fst snd] in E1, R1.
    cbn [app] in HO. rewrite <- ?app_assoc in R1, HO. cbn [List.length] in HO.
    destruct (sim_read_block e _ _ R1) as (r2 & E2 & R2).
    rewrite (block_complete _ (off + 1) b w) in E2, R2; [|assumption|lia|assumption|lia]. cbn [fst snd] in *.
    destruct (IH t (mkBlockIter r2 false)) as [I1 I2]; [exact R2|reflexivity|rewrite !app_length in *; lia| |].
    { cbn [List.length] in HT. rewrite app_length in HT. replace (off + 1 + List.length w + List.length ws)%nat with (off + S (List.length w + List.length ws))%nat by lia. exact HT. }
    split.
    + cbn [List.length Nat.add call_next map app]. unfold bi_next at 1. cbn [bi_end bi_inner]. rewrite E1, E2.
      destruct (call_next (List.length bs + 1) (mkBlockIter r2 false)) as [os i2]. cbn [fst] in *. now rewrite I1.
    + intros [|fuel] HF; [lia|]. cbn [bi_drain]. unfold bind at 1, bi_next at 1. cbn [bi_end bi_inner]. rewrite E1, E2.
      cbn [List.length] in HF. specialize (I2 fuel ltac:(lia)). unfold bind. destruct (bi_drain fuel (mkBlockIter r2 false)) as [o i2]. cbn [fst] in *. now subst o.
Qed.

(** ** Files *)
(** Reading [file] yields [blocks] and then [o]. *)
Definition reads (file : list N) (e : errkind) (blocks : list Block) (o : outcome unit) : Prop :=
  (exists er s, discard_header (mkSource file e) = (Err er, s) /\ blocks = [] /\ o = Err er)
  \/ exists header body, discard_header (mkSource file e) = (Ok header, mkSource body e)
     /\ (o = Ok tt /\ fst (bi_drain (8 * List.length body + 2) (parse_deflate (mkSource body e))) = Ok blocks
         \/ exists er, o = Err er /\ fst (bi_drain (8 * List.length body + 2) (parse_deflate (mkSource body e))) = Err er
            /\ fst (call_next (S (List.length blocks)) (parse_deflate (mkSource body e))) = map some_block blocks ++ [Err er]).

Lemma leading_length off blocks w : leading off blocks w -> (List.length blocks <= List.length w)%nat.
Proof. induction 1; cbn [List.length]; rewrite ?app_length; lia. Qed.

Lemma ends_reads file e blocks en : bytes_ok file -> file_ends file blocks en -> reads file e blocks (result_of e en).
Proof.
  intros HB HE. assert (BODY : forall h body, file = h ++ body -> gzip_header h -> discard_header (mkSource file e) = (Ok h, mkSource body e) /\ bytes_ok body).
  { intros h body -> GH. split; [apply C31_lemma; auto|]. now apply Forall_app in HB. }
  destruct HE as [h st tail bl GH HS|start tail msg HW|h body bl msg w t GH EB HW|file L|file more GH MB NE|h body bl w t GH EB HL HT]; cbn [result_of].
  - right. destruct (BODY h (st ++ tail) eq_refl GH) as [EH HBB]. exists h, (st ++ tail). split; [exact EH|]. left. split; [reflexivity|].
    destruct (proj2 (parse_all_iff (st ++ tail) e bl tail HBB)) as (it & EP & _); [eauto|]. unfold parse_all in EP. cbn [rest] in EP. now rewrite EP.
  - left. apply Forall_app in HB. assert (X := start_refused msg start tail e (proj1 HB) HW). destruct (discard_header _) as [o s]. cbn [fst] in X. subst o. eauto.
  - right. destruct (BODY h body eq_refl GH) as [EH HBB]. exists h, body. split; [exact EH|]. right. exists (EMsg msg). split; [reflexivity|]. split.
    + apply (proj2 (C87_lemma body e msg HBB)). eauto.
    + assert (X := C87_lemma_delivered body e bl msg w t HBB EB HW). rewrite Nat.add_1_r in X. exact X.
  - left. exists (EIo e), (mkSource [] e). split; [|auto]. unfold discard_header. apply bind_err. unfold read_exact. cbn [rest at_end]. destruct (Nat.leb_spec 10 (List.length file)); [lia|reflexivity].
  - left. exists (EIo e), (mkSource [] e). split; [|auto]. assert (X := C31_lemma_cut (file ++ more) (List.length file) e).
    rewrite firstn_app, Nat.sub_diag, firstn_all, firstn_O, app_nil_r in X. apply X; [apply Forall_app; split; assumption|exact GH|].
    rewrite app_length. destruct more; [congruence|cbn [List.length]; lia].
  - right. destruct (BODY h body eq_refl GH) as [EH HBB]. exists h, body. split; [exact EH|]. right. exists (EIo e). split; [reflexivity|].
    assert (HA := new_at body e HBB). assert (HM := bits_mod body). assert (LB := bits_of_bytes_length body). rewrite EB in HA, HM, LB.
    destruct (next_short e 0 bl w HL t _ HA eq_refl HM HT) as [I1 I2]. rewrite Nat.add_1_r in I1. split; [|exact I1].
    apply I2. apply leading_length in HL. rewrite app_length in LB. lia.
Qed.

Lemma C88_lemma_always : forall file, bytes_ok file -> exists blocks en, file_ends file blocks en.
Proof.
  intros file HB. set (e := UnexpectedEof). assert (TH := C31_lemma_total file e).
  destruct (discard_header (mkSource file e)) as [[h|er| |] s] eqn:EH; cbn [fst returns] in TH; try contradiction.
  - destruct (C30_lemma _ _ _ _ EH) as (body & -> & EF & _). apply C31_lemma in EH; [|assumption]. destruct EH as [_ GH].
    assert (HBB : bytes_ok body) by (rewrite EF in HB; now apply Forall_app in HB). rewrite EF.
    destruct (C87_lemma_outcomes body e HBB) as [(blocks & EP)|[(msg & EP)|EP]].
    + destruct (parse_all (mkSource body e)) as [o it] eqn:E. cbn [fst] in EP. subst o. destruct (parse_all_wf _ _ _ _ HBB E) as (_ & used & tail & -> & SB & _).
      exists blocks, Complete. now apply FE_complete.
    + apply C87_lemma in EP; [|assumption]. destruct EP as (blocks & w & t & EB & HW). exists blocks, (Complains msg). eapply FE_wrong; eassumption.
    + destruct (parse_all (mkSource body e)) as [o it] eqn:E. cbn [fst] in EP. subst o. unfold parse_all in E.
      destruct (drain_io e _ 0 _ _ _ (new_at body e HBB) (bits_mod body) eq_refl E) as (blocks & w & t & EB & HL & HT).
      exists blocks, RunsOut. eapply FE_short; eassumption.
  - destruct (header_err _ _ _ _ HB EH) as [(msg & start & tail & -> & -> & HW)|(-> & [L|(more & M1 & M2 & M3)])].
    + exists [], (Complains msg). now constructor.
    + exists [], RunsOut. now apply FE_ten.
    + exists [], RunsOut. eapply FE_header_short; eassumption.
Qed.

Lemma call_next_add n m : forall it, fst (call_next (n + m) it) = fst (call_next n it) ++ fst (call_next m (snd (call_next n it))).
Proof.
  induction n as [|n IH]; intro it; [reflexivity|]. cbn [Nat.add call_next]. destruct (bi_next it) as [o i1]. specialize (IH i1).
  destruct (call_next (n + m) i1) as [os i2]. destruct (call_next n i1) as [os' i3]. cbn [fst snd] in *. rewrite IH. reflexivity.
Qed.

Lemma same_calls it er : forall a b, fst (call_next (S (List.length a)) it) = map some_block a ++ [Err er] -> fst (call_next (S (List.length b)) it) = map some_block b ++ [Err er] -> a = b.
Proof.
  assert (G : forall a b rest, (map some_block a ++ [Err er]) ++ rest = map some_block b ++ [Err er] -> a = b).
  { induction a as [|x a IH]; intros [|y b] rest E; cbn [map app] in E; try discriminate E; [reflexivity|]. unfold some_block in E at 1 3. injection E as -> E. f_equal. now apply (IH b rest). }
  assert (W : forall a b, (List.length a <= List.length b)%nat -> fst (call_next (S (List.length a)) it) = map some_block a ++ [Err er] -> fst (call_next (S (List.length b)) it) = map some_block b ++ [Err er] -> a = b).
  { intros a b L HA HBb. replace (S (List.length b)) with (S (List.length a) + (List.length b - List.length a))%nat in HBb by lia. rewrite call_next_add, HA in HBb. eapply G, HBb. }
  intros a b HA HBb. destruct (Nat.le_ge_cases (List.length a) (List.length b)) as [L|L]; [|symmetry]; now apply W.
Qed.

Lemma reads_unique file e b1 o1 b2 o2 : reads file e b1 o1 -> reads file e b2 o2 -> b1 = b2 /\ o1 = o2.
Proof.
  intros [(er & s & E & -> & ->)|(h & body & E & R)] [(er' & s' & E' & -> & ->)|(h' & body' & E' & R')]; rewrite E in E'; inversion E'; subst; auto.
  destruct R as [(-> & D)|(er & -> & D & C)], R' as [(-> & D')|(er' & -> & D' & C')]; rewrite D in D'; inversion D'; subst; auto.
  split; [|reflexivity]. eapply same_calls; eassumption.
Qed.

Lemma C88_lemma_one : forall file b1 en1 b2 en2, bytes_ok file -> file_ends file b1 en1 -> file_ends file b2 en2 -> b1 = b2 /\ en1 = en2.
Proof.
  intros file b1 en1 b2 en2 HB H1 H2. destruct (reads_unique file UnexpectedEof b1 (result_of UnexpectedEof en1) b2 (result_of UnexpectedEof en2)) as [-> E]; [now apply ends_reads..|].
  split; [reflexivity|]. destruct en1, en2; cbn [result_of] in E; congruence.
Qed.

Lemma C88_lemma_dump : forall file e blocks en, bytes_ok file -> file_ends file blocks en -> dump_run (mkSource file e) = (listing 0 blocks, result_of e en).
Proof.
  intros file e blocks en HB HE. apply (ends_reads _ e) in HE; [|assumption]. unfold dump_run.
  destruct HE as [(er & s & E & -> & ->)|(h & body & E & R)]; rewrite E; [reflexivity|]. cbn [rest].
  assert (DF := dump_follows (8 * List.length body + 2) 0 (parse_deflate (mkSource body e))).
  destruct (bi_drain _ _) as [o it]. cbn [fst] in R. destruct R as [(-> & ->)|(er & -> & -> & C)]; [exact DF|].
  destruct DF as (bl & D1 & D2). rewrite D2. f_equal. f_equal. exact (same_calls _ _ _ _ D1 C).
Qed.

Lemma C88_lemma_decodes : forall codes, exists data all, decodes codes data all.
Proof.
  intro codes. destruct (lz_decode 32768 [] codes) as [h|] eqn:E.
  - exists h, true. now constructor.
  - destruct (lz_decode_none _ _ _ E) as (good & r & more & data & EC & EG & B). exists data, false. eapply DC_far; eassumption.
Qed.

(** Decompressing blocks, whatever room there is for the output. *)
Lemma decompress_room blocks data all room d : decodes (flat_map block_codes blocks) data all -> ring 32768 [] d ->
  exists d' out, decompress_blocks blocks (d, sink_with room) = (if fits room data then if all then Ok tt else Err (EMsg "dist must fit") else Err (EIo OtherIo), (d', out))
    /\ written out = taken room data.
Proof.
  intros HD R. assert (RW : written (snd (write_all data (sink_with room))) = taken room data /\ fst (write_all data (sink_with room)) = if fits room data then Ok tt else Err (EIo OtherIo)).
  { unfold write_all, sink_with, taken, fits. destruct room as [k|]; cbn [Base.room written app]; [|auto].
    destruct (Nat.leb_spec (List.length data) k); cbn [fst snd written]; [split; [now rewrite firstn_all2|reflexivity]|auto]. }
  destruct RW as [RW RO]. destruct HD as [data EN|good r more data EC EN B].
  - destruct (blocks_emit 32768 blocks [] data EN d (sink_with room) R) as (b' & X & _). rewrite X, RO. eauto.
  - destruct (blocks_fail _ _ _ _ _ _ _ EC EN B d (sink_with room) R) as (b' & X). rewrite X, RO. exists b', (snd (write_all data (sink_with room))).
    split; [|exact RW]. destruct (fits room data); reflexivity.
Qed.

Lemma C88_lemma_decodes_one : forall codes d1 a1 d2 a2, decodes codes d1 a1 -> decodes codes d2 a2 -> d1 = d2 /\ a1 = a2.
Proof.
  intros codes d1 a1 d2 a2 H1 H2. destruct (ring_new 32768 ltac:(lia)) as (d & _ & R).
  replace codes with (flat_map block_codes [FixedHuffman codes]) in H1, H2 by (cbn [flat_map block_codes]; apply app_nil_r).
  destruct (decompress_room _ _ _ None d H1 R) as (x1 & o1 & E1 & W1). destruct (decompress_room _ _ _ None d H2 R) as (x2 & o2 & E2 & W2).
  rewrite E1 in E2. cbn [fits taken] in *. inversion E2; subst. split; [congruence|]. destruct a1, a2; congruence.
Qed.

Lemma C88_lemma_cat : forall file e room blocks en data all, bytes_ok file -> file_ends file blocks en -> decodes (flat_map block_codes blocks) data all ->
  exists out, cat_run (mkSource file e) (sink_with room)
    = (if fits room data then if all then result_of e en else Err (EMsg "dist must fit") else Err (EIo OtherIo), out)
  /\ written out = taken room data.
Proof.
  intros file e room blocks en data all HB HE HD. apply (ends_reads _ e) in HE; [|assumption].
  destruct HE as [(er & s & E & -> & ER)|(h & body & E & R)].
  - unfold cat_run. rewrite E, ER. cbn [flat_map] in HD. destruct (C88_lemma_decodes_one [] data all [] true HD (DC_all [] [] eq_refl)) as [-> ->].
    exists (sink_with room). unfold taken, fits, sink_with. destruct room as [k|]; cbn [List.length Nat.leb written]; [now rewrite firstn_nil|auto].
  - destruct (cat_run_body file e h body (sink_with room) E) as (d & RR & EC). rewrite EC. clear EC.
    assert (CF := cat_follows (8 * List.length body + 2) (parse_deflate (mkSource body e))).
    destruct (decompress_room _ _ _ room d HD RR) as (d' & out & ED & EW).
    destruct (bi_drain _ _) as [o it]. cbn [fst] in R. destruct R as [(-> & ->)|(er & -> & -> & C)].
    + destruct CF as [_ CF]. rewrite CF, ED. exists out. auto.
    + destruct CF as (bl & C1 & CF). rewrite (same_calls _ _ _ _ C1 C) in CF. rewrite CF. unfold bind. rewrite ED. exists out.
      destruct (fits room data); [destruct all|]; auto.
Qed.

Lemma C88_lemma_status : forall inflate split f w events e blocks en data all, (forall l, List.concat (split l) = l) ->
  input_of w (Cat f) = Ok (mkRd events e) -> rd_ok events -> bytes_ok (rd_bytes events) ->
  wr_written (w_device w) = [] -> wr_ok (wr_events (w_device w)) -> wr_fails (w_device w) = false ->
  file_ends (rd_bytes events) blocks en -> decodes (flat_map block_codes blocks) data all ->
  main_run inflate split (Cat f) w = (Some (match en, all with Complete, true => 0 | _, _ => 1 end), data).
Proof.
  intros inflate split f w events e blocks en data all HS HI OK HB EW WOK WF HE HD.
  destruct (C88_lemma_cat _ e None _ _ _ _ HB HE HD) as (out & EC & WR). cbn [fits taken] in *.
  rewrite (C75_lemma inflate split (Cat f) w events e (if all then result_of e en else Err (EMsg "dist must fit")) data HS HI OK EW WOK WF); [|exists out; split; [exact EC|exact WR]].
  destruct all; [|destruct en; reflexivity]. destruct en; reflexivity.
Qed.

Lemma C88_lemma_status_dump : forall inflate split f w events e blocks en text, (forall l, List.concat (split l) = l) ->
  input_of w (Dump f) = Ok (mkRd events e) -> rd_ok events -> bytes_ok (rd_bytes events) ->
  wr_written (w_device w) = [] -> wr_ok (wr_events (w_device w)) -> wr_fails (w_device w) = false ->
  file_ends (rd_bytes events) blocks en -> dump_text (listing 0 blocks) = Ok text ->
  main_run inflate split (Dump f) w = (Some (match en with Complete => 0 | _ => 1 end), text).
Proof.
  intros inflate split f w events e blocks en text HS HI OK HB EW WOK WF HE HT.
  rewrite (C75_lemma inflate split (Dump f) w events e (result_of e en) text HS HI OK EW WOK WF); [|exists (listing 0 blocks); split; [now apply C88_lemma_dump|exact HT]].
  destruct en; reflexivity.
Qed.
