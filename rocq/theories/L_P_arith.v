(** Proof of C85. *)
From Verif Require Import Base M_bit M_lib M_code_tree M_huffman M_circles M_gzip M_parse M_serialise M_dump M_rezippers M_arith.
From Verif Require Import Spec Clients Clients_write Clients_arith L_arith L_arithw L_P_parse L_P_ser2 L_P_cost.
From Coq Require Import ZArith ZifyBool ZifyNat ZifyN.
Ltac Zify.zify_post_hook ::= Z.div_mod_to_equations.
Local Open Scope N_scope.
Local Open Scope model_scope.

Lemma calls_same bd n : forall it, IIT it -> Forall returns (fst (call_next n it)) -> mc_call_next bd n it = call_next n it.
Proof.
  induction n as [|n IH]; intros it HI HR; cbn [mc_call_next call_next] in *; [reflexivity|].
  destruct (q_next bd it HI) as [E H]. rewrite E. destruct (bi_next it) as [o it1]. cbn [fst snd] in H.
  destruct (call_next n it1) as [os it2] eqn:EC. cbn [fst] in HR. apply Forall_cons_iff in HR. destruct HR as [Ho HR].
  assert (HI1 : IIT it1) by (destruct o; try contradiction; tauto). specialize (IH it1 HI1). rewrite EC in IH. now rewrite (IH HR).
Qed.

Lemma C85_lemma_parse : forall bd bytes e n, bytes_ok bytes -> N.of_nat (List.length bytes) < 2 ^ 61 ->
  mc_call_next bd n (parse_deflate (mkSource bytes e)) = call_next n (parse_deflate (mkSource bytes e))
  /\ Forall returns (fst (mc_call_next bd n (parse_deflate (mkSource bytes e)))).
Proof.
  intros bd bytes e n HB HL. pose proof (proj2 (C16_lemma bytes e HB) n) as HR.
  rewrite (calls_same bd n _ (IIT_new bytes e HB HL) HR). now split.
Qed.

Lemma cat_loop_same bd fuel : forall it, IIT it -> simq IBS any (mc_cat_loop bd fuel it) (cat_loop fuel it).
Proof.
  induction fuel as [|fuel IH]; intros it HI; cbn [mc_cat_loop cat_loop]; [now apply q_lift|]. destruct (q_next bd it HI) as [-> H].
  destruct (bi_next it) as [[[b|]|e|m|] it']; cbn [fst snd next_runs] in H.
  - destruct H as [HI' HB]. apply (q_bind IBS any); [now apply q_block|]. intros _ _. now apply IH.
  - now apply q_ret.
  - now apply q_lift.
  - apply q_panic.
  - now apply q_lift.
Qed.

Lemma header_same bd bytes e : bytes_ok bytes -> N.of_nat (List.length bytes) < 2 ^ 61 ->
  mc_discard_header bd (mkSource bytes e) = discard_header (mkSource bytes e)
  /\ match discard_header (mkSource bytes e) with (Ok _, s) => IIT (parse_deflate s) | _ => True end.
Proof.
  intros HB HL. destruct (q_discard bd (List.length bytes) (mkSource bytes e)) as [E H]; [split; [exact HB|apply le_n]|].
  split; [exact E|]. destruct (discard_header (mkSource bytes e)) as [[] [bs e']]; cbn [fst snd] in H; auto. destruct H as [[H1 H2] _]. cbn [rest] in *.
  apply IIT_new; [exact H1|lia].
Qed.

Lemma window_new : exists w, cb_new = Ok w /\ IB w.
Proof.
  eexists. split; [reflexivity|]. unfold IB. cbn [cb_data cb_idx cb_valid]. rewrite repeat_length.
  change (32 * 1024) with 32768. repeat split; lia.
Qed.

Lemma C85_lemma_cat : forall bd bytes e out, bytes_ok bytes -> N.of_nat (List.length bytes) < 2 ^ 61 ->
  mc_cat_run bd (mkSource bytes e) out = cat_run (mkSource bytes e) out.
Proof.
  intros bd bytes e out HB HL. unfold mc_cat_run, cat_run. destruct (header_same bd bytes e HB HL) as [-> H].
  destruct (discard_header (mkSource bytes e)) as [[] s]; try reflexivity.
  destruct window_new as (w & -> & HW). destruct (cat_loop_same bd (8 * List.length (rest s) + 2) (parse_deflate s) H (w, out) HW) as [-> _]. reflexivity.
Qed.

Lemma dump_print_same bd codes : Forall run_fits codes -> mc_dump_print bd codes = (dump_print codes, Ok tt).
Proof.
  induction 1 as [|[b|r] codes Hc _ IH]; cbn [mc_dump_print dump_print map] in *; [reflexivity|now rewrite IH|].
  cbn [run_fits] in Hc. unfold mc_run. rewrite add_ok by width. now rewrite IH.
Qed.
Lemma dump_block_same bd id b : block_runs b -> mc_dump_block bd id b = (dump_block id b, Ok tt).
Proof. destruct b; cbn [block_runs mc_dump_block dump_block]; intro H; [reflexivity| |]; now rewrite dump_print_same. Qed.
Lemma dump_loop_same bd fuel : forall id it, IIT it -> mc_dump_loop bd fuel id it = dump_loop fuel id it.
Proof.
  induction fuel as [|fuel IH]; intros id it HI; cbn [mc_dump_loop dump_loop]; [reflexivity|]. destruct (q_next bd it HI) as [-> H].
  destruct (bi_next it) as [[[b|]|e|m|] it']; cbn [fst snd next_runs] in H; try reflexivity. destruct H as [HI' HB].
  rewrite dump_block_same by exact HB. now rewrite IH.
Qed.

Lemma C85_lemma_dump : forall bd bytes e, bytes_ok bytes -> N.of_nat (List.length bytes) < 2 ^ 61 ->
  mc_dump_run bd (mkSource bytes e) = dump_run (mkSource bytes e).
Proof.
  intros bd bytes e HB HL. unfold mc_dump_run, dump_run. destruct (header_same bd bytes e HB HL) as [-> H].
  destruct (discard_header (mkSource bytes e)) as [[] s]; try reflexivity. now apply dump_loop_same.
Qed.

Lemma C85_lemma_zero : forall bd inflate bytes e out, bytes_ok bytes -> N.of_nat (List.length bytes) < 2 ^ 61 ->
  mc_zero_run bd inflate (mkSource bytes e) out = zero_run inflate (mkSource bytes e) out.
Proof.
  intros bd inflate bytes e out HB HL. unfold mc_zero_run, zero_run. destruct (header_same bd bytes e HB HL) as [-> _]. reflexivity.
Qed.

Lemma C85_lemma_commands : forall bd bytes e out inflate, bytes_ok bytes -> N.of_nat (List.length bytes) < 2 ^ 61 ->
  mc_cat_run bd (mkSource bytes e) out = cat_run (mkSource bytes e) out
  /\ mc_dump_run bd (mkSource bytes e) = dump_run (mkSource bytes e)
  /\ mc_zero_run bd inflate (mkSource bytes e) out = zero_run inflate (mkSource bytes e) out.
Proof.
  intros bd bytes e out inflate HB HL. split; [now apply C85_lemma_cat|]. split; [now apply C85_lemma_dump|now apply C85_lemma_zero].
Qed.

Lemma value_runs b : block_value b -> block_runs b.
Proof.
  assert (H : forall cs, Forall code_value cs -> Forall run_fits cs).
  { intros cs. apply Forall_impl. intros [x|r]; cbn; tauto. }
  destruct b; cbn [block_value block_runs]; [auto|apply H|]. intros [_ HC]. now apply H.
Qed.

Lemma C85_lemma_decompress : forall bd cap w blocks out, cap < 65536 -> cb_with_capacity cap = Ok w -> Forall block_value blocks ->
  mc_decompress_blocks bd blocks (w, out) = decompress_blocks blocks (w, out).
Proof.
  intros bd cap w blocks out HC EW HV.
  assert (HW : IB w).
  { unfold cb_with_capacity in EW. destruct (N.ltb_spec 0 cap); [|discriminate]. injection EW as <-. unfold IB. cbn [cb_data cb_idx cb_valid].
    rewrite repeat_length. repeat split; lia. }
  assert (H : simq IBS any (mc_decompress_blocks bd blocks) (decompress_blocks blocks)).
  { induction HV as [|b blocks HB _ IH]; cbn [mc_decompress_blocks decompress_blocks]; [now apply q_ret|].
    apply (q_bind IBS any); [apply q_block; now apply value_runs|]. intros _ _. exact IH. }
  now apply H.
Qed.

Lemma fits_writes bd b : block_fits b -> (bd = Checked \/ Forall in_range (block_codes b)) -> block_writes bd b.
Proof.
  intros [HV HT] HR.
  assert (H : forall cs, Forall code_value cs -> (bd = Checked \/ Forall in_range cs) -> Forall (code_writes bd) cs).
  { intros cs HC HX. rewrite Forall_forall in *. intros c Hc. specialize (HC c Hc). destruct c as [x|r]; [exact I|]. cbn [code_writes code_value] in *.
    split; [tauto|]. split; [tauto|]. destruct HX as [HX|HX]; [now left|right]. exact (HX _ Hc). }
  destruct b; cbn [block_value block_writes block_codes] in *; [exact I|now apply H|]. split; [exact HT|]. apply H; tauto.
Qed.

Lemma write_same bd fuel blocks : (16 <= fuel)%nat -> Forall block_fits blocks ->
  (bd = Checked \/ Forall (fun b => Forall in_range (block_codes b)) blocks) -> mc_compress_all bd fuel blocks = compress_all blocks.
Proof.
  intros Hf HF HR. unfold mc_compress_all, compress_all.
  assert (HW : Forall (block_writes bd) blocks).
  { rewrite Forall_forall in *. intros b Hb. apply fits_writes; [now apply HF|]. destruct HR as [HR|HR]; [now left|right]. now apply HR. }
  destruct (q_wstream bd fuel blocks Hf HW (bw_new new_sink)) as [-> _]; [cbn; unfold IW; cbn; lia|]. reflexivity.
Qed.

Lemma C85_lemma_write : forall bd fuel blocks, (16 <= fuel)%nat -> Forall block_fits blocks ->
  Forall (fun b => Forall in_range (block_codes b)) blocks -> mc_compress_all bd fuel blocks = compress_all blocks.
Proof. intros. apply write_same; auto. Qed.

Lemma C85_lemma_checked : forall fuel blocks, (16 <= fuel)%nat -> Forall block_fits blocks ->
  mc_compress_all Checked fuel blocks = compress_all blocks.
Proof. intros. apply write_same; auto. Qed.

(** ** Distances out of range *)
Lemma zero_loop_hangs d fuel : forall eb code, 0 < d -> eb < 256 -> code < 256 -> mc_distance_loop Release fuel d eb code 0 = Diverge.
Proof.
  induction fuel as [|fuel IH]; intros eb code Hd He Hc; cbn [mc_distance_loop]; [reflexivity|].
  change (mul Release 16 0 2) with (@Ok N 0). cbn [obind]. destruct (N.ltb_spec 0 d); [|lia].
  assert (HA : forall a b, exists x, add Release 8 a b = Ok x /\ x < 256).
  { intros a b. unfold add. change (2 ^ 8) with 256. destruct (N.ltb_spec (a + b) 256); [eexists; split; [reflexivity|assumption]|].
    eexists. split; [reflexivity|]. now apply N.mod_lt. }
  destruct (HA eb 1) as (x & -> & Hx). cbn [obind]. destruct (HA code 2) as (y & -> & Hy). cbn [obind]. now apply IH.
Qed.

Lemma loop_hangs d n : forall fuel eb, 32768 < d < 65536 -> 15 <= N.of_nat n + eb -> 1 <= eb <= 14 ->
  mc_distance_loop Release fuel d eb (2 * eb + 2) (2 ^ (eb + 1)) = Diverge.
Proof.
  induction n as [|n IH]; intros fuel eb Hd Hn He; [lia|]. destruct fuel as [|fuel]; [reflexivity|]. cbn [mc_distance_loop].
  assert (P : 2 ^ (eb + 1) * 2 = 2 ^ (eb + 1 + 1)) by (rewrite (N.pow_add_r 2 (eb + 1) 1); lia).
  destruct (N.eq_dec eb 14) as [->|Hne].
  - change (mul Release 16 (2 ^ (14 + 1)) 2) with (@Ok N 0). cbn [obind]. destruct (N.ltb_spec 0 d); [|lia].
    rewrite !add_ok by width. cbn [obind]. apply zero_loop_hangs; lia.
  - assert (HP : 2 ^ (eb + 1 + 1) <= 32768) by (change 32768 with (2 ^ 15); apply N.pow_le_mono_r; lia).
    rewrite mul_ok by (rewrite P; width). cbn [obind]. rewrite P. destruct (N.ltb_spec (2 ^ (eb + 1 + 1)) d); [|lia].
    rewrite !add_ok by width. cbn [obind]. replace (2 * eb + 2 + 2) with (2 * (eb + 1) + 2) by lia. apply IH; lia.
Qed.

Lemma huff_hangs d fuel : 32768 < d < 65536 -> mc_huff_distance Release fuel d = Diverge.
Proof.
  intro H. unfold mc_huff_distance. destruct (N.leb_spec d 4); [lia|].
  pose proof (loop_hangs d 14 fuel 1 H ltac:(lia) ltac:(lia)) as E. change (2 * 1 + 2) with 4 in E. change (2 ^ (1 + 1)) with 4 in E. now rewrite E.
Qed.
Lemma huff_zero fuel : mc_huff_distance Release fuel 0 = Ok (Some (255, 0, 0)).
Proof. reflexivity. Qed.

Lemma bind_ok {S A B} (m : M S A) (k : A -> M S B) s b s' : bind m k s = (Ok b, s') ->
  exists a s1, m s = (Ok a, s1) /\ k a s1 = (Ok b, s').
Proof. unfold bind. destruct (m s) as [[a| | |] s1]; try discriminate. intro H. now exists a, s1. Qed.
Lemma bind_via {S A B} (m : M S A) (k : A -> M S B) s a s1 : m s = (Ok a, s1) -> bind m k s = k a s1.
Proof. intro E. unfold bind. now rewrite E. Qed.

Lemma lift_ok {S A} (o : outcome A) (s : S) a s' : lift o s = (Ok a, s') -> o = Ok a /\ s' = s.
Proof. intro H. split; [exact (f_equal fst H)|exact (eq_sym (f_equal snd H))]. Qed.

Lemma codes_loop_app lt dt a : forall b w w', compressed_codes_loop lt dt (a ++ b) w = (Ok tt, w') ->
  exists w1, compressed_codes_loop lt dt a w = (Ok tt, w1) /\ compressed_codes_loop lt dt b w1 = (Ok tt, w').
Proof.
  induction a as [|c a IH]; intros b w w' H; cbn [app compressed_codes_loop] in *; [now exists w|].
  apply bind_ok in H as ([] & w0 & E0 & H). apply IH in H as (w1 & E1 & H). exists w1. split; [|exact H]. now rewrite (bind_via _ _ _ _ _ E0).
Qed.
Lemma mc_loop_app bd fuel lt dt a : forall b w w1, mc_codes_loop bd fuel lt dt a w = (Ok tt, w1) ->
  mc_codes_loop bd fuel lt dt (a ++ b) w = mc_codes_loop bd fuel lt dt b w1.
Proof.
  induction a as [|c a IH]; intros b w w1 H; cbn [app mc_codes_loop] in *; [now injection H as ->|].
  apply bind_ok in H as ([] & w0 & E0 & H). rewrite (bind_via _ _ _ _ _ E0). now apply IH.
Qed.

(** Everything up to the reference [mkRef d k] is written. *)
Lemma reach_ref bd fuel before k after d : (16 <= fuel)%nat -> Forall code_ok before -> k < 256 ->
  exists t dt w, FIXED_DISTANCE_TREE = Ok t /\ tree_invert t = Ok dt
    /\ forall o w', mc_encode_distance bd fuel (Some dt) d w = (o, w') -> (forall a, o <> Ok a) ->
       mc_compress_all bd fuel [FixedHuffman (before ++ Reference (mkRef d k) :: after)]
       = match o with Ok _ => Diverge | Err e => Err e | Panic m => Panic m | Diverge => Diverge end.
Proof.
  intros Hf HB Hk. set (good := before ++ [Reference (mkRef 1 k)]).
  assert (HG : Forall code_ok good) by (apply Forall_app; split; [exact HB|constructor; [|constructor]]; cbn; unfold ref_ok; cbn; lia).
  destruct (C18_lemma_exact [FixedHuffman good] UnexpectedEof ltac:(discriminate)) as (bytes & EC & _); [constructor; [exact HG|constructor]|].
  assert (HW : Forall (code_writes bd) good).
  { revert HG. apply Forall_impl. intros [x|r]; [intro; exact I|]. cbn. unfold ref_ok, dist_fits. intros H. split; [lia|]. split; [lia|]. right. lia. }
  unfold compress_all in EC. destruct (compress_blocks [FixedHuffman good] (bw_new new_sink)) as [o w9] eqn:E. destruct o as [[]| | |]; cbn [obind] in EC; try discriminate EC. clear EC.
  cbn [compress_blocks] in E. apply bind_ok in E as ([] & w1 & E1 & E). apply bind_ok in E as ([] & w2 & E & _).
  cbn [compressed_block] in E. apply bind_ok in E as ([] & w3 & E3 & E).
  apply bind_ok in E as (lt & w4 & E4 & E). apply lift_ok in E4 as [EL ->].
  apply bind_ok in E as (dt & w5 & E5 & E). apply lift_ok in E5 as [ED ->].
  unfold compressed_codes in E. apply bind_ok in E as (li & w6 & E6 & E). apply lift_ok in E6 as [ELI ->].
  apply bind_ok in E as (di & w7 & E7 & E). apply lift_ok in E7 as [EDI ->].
  apply bind_ok in E as ([] & w8 & E8 & E). apply bind_ok in E as ([] & w10 & E10 & _).
  assert (E8' : Nat.ltb 256 (List.length li) = true /\ w8 = w3).
  { revert E8. destruct (Nat.ltb 256 _); cbn [assert_]; unfold ret, panic; [intros [= <-]; auto|discriminate]. }
  destruct E8' as [EN ->]. clear E8. subst good. apply codes_loop_app in E10 as (w11 & EB & ER).
  cbn [compressed_codes_loop compressed_code] in ER. apply bind_ok in ER as ([] & w12 & ER & _). apply bind_ok in ER as ([] & w13 & ER & _).
  assert (ML : made lt) by exact (expect_made _ _ _ EL). assert (MD : made dt) by exact (expect_made _ _ _ ED).
  destruct (invert_same bd lt ML) as [EIL HIL]. destruct (invert_same bd dt MD) as [EID HID].
  cbn [invert_opt] in EDI. destruct (tree_invert dt) as [dl| | |] eqn:EDL; cbn [obind] in EDI; try discriminate EDI. injection EDI as <-.
  exists dt, dl, w13. split; [exact ED|]. split; [exact EDL|]. intros o w' EO HO.
  apply Forall_app in HW as [HW _].
  assert (I0 : IW (bw_new new_sink)) by (unfold IW; cbn; lia).
  destruct (q_wbit bd true (bw_new new_sink) I0) as [Q1 I1]. rewrite E1 in Q1, I1. cbn [fst snd] in I1. destruct I1 as [I1 _].
  destruct (q_wval bd 2 1 ltac:(lia) w1 I1) as [Q3 I3]. rewrite E3 in Q3, I3. cbn [fst snd] in I3. destruct I3 as [I3 _].
  destruct (q_wcodes bd fuel li (Some dl) before Hf (HIL _ ELI) (HID _ eq_refl) HW w3 I3) as [Q4 I4]. rewrite EB in Q4, I4. cbn [fst snd] in I4. destruct I4 as [I4 _].
  destruct (q_wrun bd li (r_run (mkRef 1 k)) (HIL _ ELI) ltac:(unfold r_run; cbn [r_run_minus_3]; lia) w11 I4) as [Q5 I5]. rewrite ER in Q5, I5.
  unfold mc_compress_all. cbn [mc_compress_blocks]. rewrite (bind_via _ _ _ _ _ Q1).
  assert (ES : mc_compressed_block bd fuel (FixedHuffman (before ++ Reference (mkRef d k) :: after)) w1
    = (match o with Ok _ => Diverge | Err e => Err e | Panic m => Panic m | Diverge => Diverge end, w')).
  { cbn [mc_compressed_block]. rewrite (bind_via _ _ _ _ _ Q3). rewrite EL. rewrite (bind_via _ _ _ lt w3 eq_refl). rewrite ED. rewrite (bind_via _ _ _ dt w3 eq_refl).
    unfold mc_compressed_codes. rewrite EIL, ELI. rewrite (bind_via _ _ _ li w3 eq_refl). cbn [mc_invert_opt]. rewrite EID. cbn [obind].
    rewrite (bind_via _ _ _ (Some dl) w3 eq_refl). rewrite EN. cbn [assert_]. rewrite (bind_via _ _ _ tt w3 eq_refl).
    unfold bind at 1. rewrite (mc_loop_app _ _ _ _ _ _ _ _ Q4). cbn [mc_codes_loop mc_compressed_code]. unfold mc_run. cbn [r_run_minus_3 r_dist].
    rewrite add_ok by width. unfold bind at 1. rewrite (bind_via _ _ _ (k + 3) w11 eq_refl). change (k + 3) with (r_run (mkRef 1 k)).
    rewrite (bind_via _ _ _ _ _ Q5), EO. destruct o; [now destruct (HO a)|reflexivity..]. }
  unfold bind. rewrite ES. destruct o; [now destruct (HO a)|reflexivity..].
Qed.

Lemma fixed_255 : exists t l, FIXED_DISTANCE_TREE = Ok t /\ tree_invert t = Ok l /\ get_idx l (N.to_nat 255) = Ok None.
Proof. do 2 eexists. split; [vm_compute; reflexivity|]. split; vm_compute; reflexivity. Qed.

Lemma checked_panics fuel d : (16 <= fuel)%nat -> d = 0 \/ 32768 < d < 65536 -> exists m, mc_huff_distance Checked fuel d = Panic m.
Proof.
  intros Hf H. destruct (dist_same Checked fuel d Hf) as [-> _]; [split; [lia|now left]|]. unfold huff_encode_distance.
  destruct H as [->|H]; [eexists; reflexivity|]. destruct (N.leb_spec d 4); [lia|].
  assert (HL : forall n eb, 15 <= N.of_nat n + eb -> 1 <= eb <= 14 -> exists m, encode_distance_loop n d eb (2 * eb + 2) (2 ^ (eb + 1)) = Panic m).
  { induction n as [|n IH]; intros eb Hn He; [lia|]. cbn [encode_distance_loop].
    assert (P : 2 ^ (eb + 1) * 2 = 2 ^ (eb + 1 + 1)) by (rewrite (N.pow_add_r 2 (eb + 1) 1); lia). rewrite P.
    destruct (N.leb_spec 65536 (2 ^ (eb + 1 + 1))) as [|HN]; [eexists; reflexivity|].
    destruct (N.eq_dec eb 14) as [->|Hne]; [cbn in HN; lia|].
    assert (HP : 2 ^ (eb + 1 + 1) <= 32768) by (change 32768 with (2 ^ 15); apply N.pow_le_mono_r; lia).
    destruct (N.ltb_spec (2 ^ (eb + 1 + 1)) d); [|lia]. replace (2 * eb + 2 + 2) with (2 * (eb + 1) + 2) by lia. apply IH; lia. }
  destruct (HL 16%nat 1 ltac:(lia) ltac:(lia)) as [m E]. change (2 * 1 + 2) with 4 in E. change (2 ^ (1 + 1)) with 4 in E. rewrite E. now exists m.
Qed.

Lemma C85_lemma_out_of_range : forall fuel before d k after, (16 <= fuel)%nat -> Forall code_ok before -> k < 256 ->
  d = 0 \/ 32768 < d < 65536 ->
  (exists m, mc_compress_all Checked fuel [FixedHuffman (before ++ Reference (mkRef d k) :: after)] = Panic m)
  /\ (d = 0 -> exists m, mc_compress_all Release fuel [FixedHuffman (before ++ Reference (mkRef d k) :: after)] = Panic m)
  /\ (d <> 0 -> mc_compress_all Release fuel [FixedHuffman (before ++ Reference (mkRef d k) :: after)] = Diverge).
Proof.
  intros fuel before d k after Hf HB Hk Hd. split; [|split].
  - destruct (reach_ref Checked fuel before k after d Hf HB Hk) as (t & dt & w & _ & _ & H). destruct (checked_panics fuel d Hf Hd) as [m EM].
    exists m. rewrite (H (Panic m) w); [reflexivity| |discriminate]. unfold mc_encode_distance. rewrite EM. reflexivity.
  - intros ->. destruct (reach_ref Release fuel before k after 0 Hf HB Hk) as (t & dt & w & ET & EI & H).
    destruct fixed_255 as (t' & l' & ET' & EI' & EG). assert (t' = t) by congruence. subst t'. assert (l' = dt) by congruence. subst l'.
    assert (EM : mc_encode_distance Release fuel (Some dt) 0 w = (Panic "called `Option::unwrap()` on a `None` value", w))
      by (unfold mc_encode_distance; rewrite huff_zero; unfold bind, lift; rewrite EG; reflexivity).
    eexists. rewrite (H _ _ EM); [reflexivity|discriminate].
  - intro Hn. destruct (reach_ref Release fuel before k after d Hf HB Hk) as (t & dt & w & _ & _ & H).
    rewrite (H Diverge w); [reflexivity| |discriminate]. unfold mc_encode_distance. rewrite huff_hangs by lia. reflexivity.
Qed.

(** ** Estimates *)
Lemma C85_lemma_cost : forall bd fuel ll dl lt dt ls c, (16 <= fuel)%nat -> (List.length ll <= 288)%nat -> (List.length dl <= 288)%nat ->
  tree_new ll = Ok lt -> tree_new dl = Ok dt -> Lengths_new lt dt = Ok ls -> code_ok c ->
  exists o, mc_length bd fuel ls c = Ok o /\ Lengths_length ls c = Ok o.
Proof.
  intros bd fuel ll dl lt dt ls c Hf H1 H2 E1 E2 E3 HC. destruct (C51_lemma ll dl lt dt ls H1 H2 E1 E2 E3) as (HT & _ & _).
  destruct (HT c HC) as [o E]. exists o. split; [|exact E]. clear HT H1 H2 E1 E2 E3. destruct c as [b|r]; [exact E|].
  destruct HC as [HD HR]. cbn [mc_length Lengths_length] in *. unfold mc_run. rewrite add_ok by (unfold r_run in *; width). cbn [obind].
  change (r_run_minus_3 r + 3) with (r_run r). rewrite run_code_same by (unfold r_run; lia).
  destruct (encode_run_length (r_run r)); cbn [obind] in *; try discriminate E. destruct (get_idx (ls_length ls) _) as [[n|]| | |]; cbn [obind] in *; try discriminate E; [|exact E].
  destruct (dist_same bd fuel (r_dist r) Hf) as [-> _]; [split; [lia|now right]|].
  destruct (huff_encode_distance (r_dist r)) as [[[[code bits] x]|]| | |]; cbn [obind] in *; try discriminate E.
  destruct (get_idx (ls_distance ls) _) as [[k|]| | |]; cbn [obind] in *; try discriminate E; [|exact E].
  destruct (N.ltb_spec (n + k + bits) 256); [|discriminate E]. rewrite add_ok by width. cbn [obind]. rewrite add_ok by width. exact E.
Qed.
