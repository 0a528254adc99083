(** Proofs of C90: the check of the regression tests. *)
From Verif Require Import Base M_bit M_lib M_code_tree M_circles M_gzip M_parse M_serialise M_all_refs M_technique M_trace M_fuzz M_rezippers M_harness Spec Spec_encoder
  Clients Clients_wrong Clients_verdict Clients_tracing Clients_restore Clients_harness L_bits L_ring L_parse L_prefix L_P_circ L_P_parse L_P_gzip L_search L_P_search L_tech L_P_tech L_trace L_strace
  L_P_trace L_P_e2e L_P_tracing L_restore L_P_encoder L_writer L_ser L_P_rez L_P_fuzz L_P_cut L_P_verdict.
From Coq Require Import ZArith ZifyBool ZifyNat ZifyN.
Ltac Zify.zify_post_hook ::= Z.div_mod_to_equations.
Local Open Scope N_scope.
Local Open Scope model_scope.

Lemma config_level level c : Config_gzip level = Ok c -> 1 <= level <= 9.
Proof. unfold Config_gzip. destruct (N.leb_spec 1 level), (N.leb_spec level 9); cbn [andb]; intro E; try discriminate E; lia. Qed.

Lemma greedy_level w level pos codes : gzip_greedy w level pos codes -> 1 <= level <= 9.
Proof.
  intros (good & lazy_ & nice_ & chain_ & H1 & H2 & _). split; [exact H1|].
  assert (X : nth_error gzip_levels (N.to_nat (level - 1)) <> None) by congruence. apply nth_error_Some in X. change (List.length gzip_levels) with 9%nat in X. lia.
Qed.

(** One block. *)
Lemma try_cases level p d codes : bytes_ok p -> bytes_ok d -> Forall code_ok codes -> encodes p d codes ->
  (exists hints, try_gzip level p d codes = Ok hints /\ (every_correct hints = true <-> gzip_greedy (p ++ d) level (List.length p) codes))
  \/ (exists m, try_gzip level p d codes = Panic m) /\ ~ gzip_greedy (p ++ d) level (List.length p) codes.
Proof.
  intros B1 B2 HC HE. destruct (Config_gzip level) as [c|e|m|] eqn:EC.
  - assert (HL := config_level _ _ EC). assert (G := C58_lemma_gzip level p d codes HL B1 B2 HC HE).
    destruct (with_sixteen_ok p d (match insert_only_below_length (cfg_wams c) with Some l => l | None => 65535 end)) as (refs & EW & _).
    destruct (trace_lemma c p d _ refs codes B1 B2 EW HE) as (hints & ET & L & _ & _ & _).
    destruct (C46_lemma_exact level c p d codes refs hints EC B1 B2 HC HE EW ET) as [[_ X]|[_ [m X]]]; rewrite X in *.
    + left. exists hints. split; [reflexivity|]. rewrite every_correct_spec, L, <- G. split; [intros H; now f_equal|intros H; injection H as H; exact H].
    + right. split; [eauto|]. intro Y. apply G in Y. discriminate.
  - unfold Config_gzip in EC. destruct (_ && _); [|discriminate EC]. unfold get_idx in EC. destruct (nth_error _ _); discriminate EC.
  - right. split; [exists m; unfold try_gzip; now rewrite EC|]. intro Y. destruct (gzip_levels_config level (greedy_level _ _ _ _ Y)) as (c & X). congruence.
  - unfold Config_gzip in EC. destruct (_ && _); [|discriminate EC]. unfold get_idx in EC. destruct (nth_error _ _); discriminate EC.
Qed.

Lemma lz_grows cap h cs r : lz_decode cap h cs = Some r -> exists data, r = h ++ data.
Proof. intro E. destruct (lz_decode_grows _ _ _ _ E) as (data & ->). eauto. Qed.

Lemma run_blocks level blocks : forall hist d parts fuel it last, bytes_ok hist -> Forall block_wf blocks -> ring 32768 hist d ->
  returns (fst (bi_drain fuel it)) ->
  fst (call_next (S (List.length blocks)) it) = map (fun b => Ok (Some b)) blocks ++ [last] -> (last = Ok None \/ exists er, last = Err er) ->
  (exists more, last = Ok None /\ harness_loop fuel level it d parts = Ok (parts ++ more) /\ (forallb every_correct more = true <-> reproduced level hist blocks))
  \/ (exists m, harness_loop fuel level it d parts = Panic m) /\ (last = Ok None -> ~ reproduced level hist blocks).
Proof.
  induction blocks as [|b blocks IH]; intros hist d parts fuel it last HB HW R HD HC HL.
  { cbn [List.length map app call_next] in HC. destruct (bi_next it) as [o' it1] eqn:EN. cbn [fst] in HC. injection HC as ->.
    destruct fuel as [|fuel]; cbn [bi_drain harness_loop] in *; [destruct HD|]. rewrite EN. destruct HL as [->|(er & ->)]; cbn [result_unwrap obind].
    - left. exists []. rewrite app_nil_r. split; [reflexivity|]. split; [reflexivity|]. split; [constructor|reflexivity].
    - right. split; [eauto|]. discriminate. }
  cbn [List.length map app] in HC. destruct (bi_next it) as [o' it1] eqn:EN.
  assert (o' = Ok (Some b)). { cbn [call_next] in HC. rewrite EN in HC. destruct (bi_next it1). destruct (call_next (List.length blocks) _). cbn [fst] in HC. now injection HC. }
  subst o'. rewrite (call_next_cons _ _ _ _ EN) in HC. injection HC as HC.
  destruct fuel as [|fuel]; cbn [bi_drain harness_loop] in *; [destruct HD|]. rewrite EN. cbn [result_unwrap obind].
  assert (HD' : returns (fst (bi_drain fuel it1))).
  { unfold bind at 1 in HD. rewrite EN in HD. unfold bind in HD. destruct (bi_drain fuel it1) as [[bs| | |] it2]; cbn [fst returns] in *; tauto. }
  inversion HW as [|? ? WB HW']; subst.
  assert (DEC : (exists data, b = Uncompressed data) \/ (forall data, b <> Uncompressed data)
     /\ match b with Uncompressed _ => Panic "not implemented" | FixedHuffman cs | DynamicHuffman _ cs => Ok cs end = Ok (block_codes b)
     /\ decompressed_block b = decompressed_codes (block_codes b)).
  { destruct b as [x|cs|v cs]; [left; eauto|right|right]; repeat split; discriminate. }
  destruct DEC as [(data & ->)|(NS & EC & ED)].
  { right. cbn [obind]. split; [eauto|]. intros _ X. inversion X; subst. match goal with H : forall d, _ <> _ |- _ => eapply H; reflexivity end. }
  assert (EC' : match b with Uncompressed _ => Panic "not implemented" | DynamicHuffman _ codes => Ok codes | FixedHuffman codes => Ok codes end = Ok (block_codes b)) by (destruct b; exact EC).
  rewrite EC'. cbn [obind]. rewrite (ring_vec_lastn _ _ R). cbn [obind].
  assert (X := block_run hist d b R). rewrite ED in X. assert (WC := wf_codes b WB).
  destruct (lz_decode 32768 hist (block_codes b)) as [h|] eqn:EL.
  2: { destruct X as (e & [d' s'] & ->). cbn [result_unwrap obind]. right. split; [eauto|]. intros _ Y. inversion Y; subst. congruence. }
  destruct X as (data & d' & -> & EX & _ & R'). rewrite EX. cbn [result_unwrap obind written].
  assert (HB' := lz_decode_bytes _ _ _ _ HB WC EL). assert (HDt : bytes_ok data) by (apply Forall_app in HB'; apply HB').
  assert (HP := lastn_bytes (N.to_nat 32768) hist HB). assert (HE := encodes_window _ _ _ EL).
  destruct (try_cases level _ _ _ HP HDt WC HE) as [(hints & ET & G)|[(m & ET) NG]]; rewrite ET; cbn [obind].
  2: { right. split; [eauto|]. intros _ Y. inversion Y as [|? data' ? ? A1 A2 A3 A4]; subst. rewrite EL in A2. injection A2 as A2. apply app_inv_head in A2. subst data'. now apply NG. }
  destruct (IH (hist ++ data) d' (parts ++ [hints]) fuel it1 last HB' HW' R' HD' HC HL) as [(more & E1 & E2 & E3)|[E1 E2]].
  - left. exists (hints :: more). rewrite E2, <- app_assoc. split; [exact E1|]. split; [reflexivity|]. cbn [forallb]. rewrite andb_true_iff, G, E3. split.
    + intros [Y1 Y2]. econstructor; eassumption.
    + intro Y. inversion Y as [|? data' ? ? A1 A2 A3 A4]; subst. rewrite EL in A2. injection A2 as A2. apply app_inv_head in A2. subst data'. auto.
  - right. split; [exact E1|]. intros EN' Y. inversion Y as [|? data' ? ? A1 A2 A3 A4]; subst. rewrite EL in A2. injection A2 as A2. apply app_inv_head in A2. subst data'. now apply E2.
Qed.

Lemma drain_ok_of_next fuel : forall it bl, fst (call_next (S (List.length bl)) it) = map (fun b => Ok (Some b)) bl ++ [Ok None] ->
  returns (fst (bi_drain fuel it)) -> fst (bi_drain fuel it) = Ok bl.
Proof.
  induction fuel as [|fuel IH]; intros it bl HC T; cbn [bi_drain] in *; [destruct T|]. unfold bind at 1 in T. unfold bind at 1.
  destruct bl as [|b bl]; cbn [List.length map app] in HC.
  - cbn [call_next] in HC. destruct (bi_next it) as [o it1]. cbn [fst] in HC. injection HC as ->. reflexivity.
  - destruct (bi_next it) as [o it1] eqn:EN.
    assert (o = Ok (Some b)). { cbn [call_next] in HC. rewrite EN in HC. destruct (bi_next it1). destruct (call_next (List.length bl) _). cbn [fst] in HC. now injection HC. }
    subst o. rewrite (call_next_cons _ _ _ _ EN) in HC. injection HC as HC. unfold bind in T |- *.
    specialize (IH it1 bl HC). destruct (bi_drain fuel it1) as [[bs| | |] it2]; cbn [fst returns] in *; try tauto; specialize (IH I); [injection IH as ->; reflexivity|discriminate IH].
Qed.

Lemma harness_cases level file : bytes_ok file ->
  (exists blocks, file_ends file blocks Complete /\ (harness_try_gzip level file = Ok tt /\ reproduced level [] blocks
     \/ (exists m, harness_try_gzip level file = Panic m) /\ ~ reproduced level [] blocks))
  \/ (exists m, harness_try_gzip level file = Panic m) /\ (forall blocks, ~ file_ends file blocks Complete).
Proof.
  intro HB. destruct (C88_lemma_always file HB) as (blocks & en & FE). assert (HR := ends_reads file UnexpectedEof blocks en HB FE).
  assert (NC : en <> Complete -> forall bl, ~ file_ends file bl Complete).
  { intros NE bl FB. destruct (C88_lemma_one file blocks en bl Complete HB FE FB). congruence. }
  unfold harness_try_gzip, harness_run_gzip.
  destruct HR as [(er & s & EH & -> & EO)|(h & body & EH & CASE)]; rewrite EH; cbn [result_unwrap obind rest].
  { right. split; [eauto|]. apply NC. intros ->. discriminate EO. }
  destruct (C30_lemma _ _ _ _ EH) as (body' & E' & EF & _). injection E' as <-.
  assert (HBB : bytes_ok body) by (rewrite EF in HB; apply Forall_app in HB; apply HB).
  destruct (ring_new 32768 ltac:(lia)) as (d & E0 & R0). unfold cb_new. change (cb_with_capacity 32768) with (cb_with_capacity (32 * 1024)) in E0. rewrite E0. cbn [obind].
  assert (T := parse_all_total body UnexpectedEof HBB). unfold parse_all in T. cbn [rest] in T.
  destruct (next_blocks _ _ T) as (bl & last & H1 & H2 & H3).
  assert (WF : Forall block_wf bl).
  { apply Forall_forall. intros b HI. destruct (call_next_live UnexpectedEof (S (List.length bl)) _ _ (live_new body UnexpectedEof HBB)) as (_ & _ & _ & H).
    destruct (H b) as (_ & _ & _ & X); [|exact X]. rewrite H1. apply in_or_app. left. now apply (in_map (fun b => Ok (Some b))). }
  destruct (run_blocks level bl [] d [] _ _ last ltac:(constructor) WF R0 T H1 H2) as [(more & EL & E & G)|[(m & E) G]]; rewrite E; cbn [obind app].
  - destruct CASE as [[EO ED]|(er & EO & ED & CN)].
    + destruct (H3 _ ED) as [<- _]. assert (en = Complete) by (destruct en; [reflexivity|discriminate EO|discriminate EO]). subst en. left. exists blocks. split; [exact FE|].
      destruct (forallb every_correct more) eqn:EA; [left; split; [reflexivity|now apply G]|right]. split; [eauto|]. intro Y. apply G in Y. discriminate.
    + exfalso. subst last. rewrite (drain_ok_of_next _ _ _ H1 T) in ED. discriminate.
  - destruct CASE as [[EO ED]|(er & EO & ED & CN)].
    + destruct (H3 _ ED) as [<- EN]. assert (en = Complete) by (destruct en; [reflexivity|discriminate EO|discriminate EO]). subst en. left. exists blocks. split; [exact FE|]. right. eauto.
    + right. split; [eauto|]. apply NC. intros ->. discriminate EO.
Qed.

Lemma C90_lemma : forall level file, bytes_ok file ->
  (harness_try_gzip level file = Ok tt <-> exists blocks, file_ends file blocks Complete /\ reproduced level [] blocks).
Proof.
  intros level file HB. destruct (harness_cases level file HB) as [(blocks & FE & [[E HR]|[[m E] NR]])|[[m E] NF]]; rewrite E; split.
  - eauto.
  - reflexivity.
  - discriminate.
  - intros (bl & FB & HR). destruct (C88_lemma_one file bl Complete blocks Complete HB FB FE) as [-> _]. contradiction.
  - discriminate.
  - intros (bl & FB & _). now apply NF in FB.
Qed.

Lemma C90_lemma_ends : forall level file, bytes_ok file -> harness_try_gzip level file = Ok tt \/ exists m, harness_try_gzip level file = Panic m.
Proof. intros level file HB. destruct (harness_cases level file HB) as [(blocks & FE & [[E HR]|[[m E] NR]])|[[m E] NF]]; eauto. Qed.

(** ** Files that pass *)
Lemma window_encodes hist data cs : encodes (lastn (N.to_nat 32768) hist) data cs -> lz_decode 32768 hist cs = Some (hist ++ data).
Proof.
  intro E. unfold encodes in E. assert (S := firstn_skipn (List.length hist - N.to_nat 32768) hist). fold (lastn (N.to_nat 32768) hist) in S.
  destruct (Nat.le_gt_cases (N.to_nat 32768) (List.length hist)) as [L|L].
  - rewrite <- S at 1. rewrite lz_decode_window by (unfold lastn; rewrite skipn_length; lia). rewrite E. cbn [option_map]. now rewrite app_assoc, S.
  - unfold lastn in E. replace (List.length hist - N.to_nat 32768)%nat with O in E by lia. exact E.
Qed.

Lemma fixed_body codes : Forall code_ok codes -> exists w, body_bits fixed_ll fixed_dl codes w.
Proof.
  intro H. destruct (expressible_body fixed_ll fixed_dl codes) as (w & HW).
  - apply fixed_ll_codes. lia.
  - eapply Forall_impl; [|exact H]. intros. now apply fixed_expressible.
  - exists w. now apply canonical_body_body.
Qed.

Lemma greedy_blocks level chunks : 1 <= level <= 9 -> Forall bytes_ok chunks -> forall hist, bytes_ok hist ->
  exists codes, List.length codes = List.length chunks /\ Forall (Forall code_ok) codes
    /\ reproduced level hist (map FixedHuffman codes)
    /\ lz_decode 32768 hist (List.concat codes) = Some (hist ++ List.concat chunks).
Proof.
  intros HL HC. induction HC as [|d chunks HD HC IH]; intros hist HB.
  - exists []. cbn [map List.concat lz_decode]. rewrite app_nil_r. repeat split; constructor.
  - destruct (C58_lemma_unique level (lastn (N.to_nat 32768) hist) d HL (lastn_bytes _ _ HB) HD) as (cs & HG & HE & HO & _).
    apply window_encodes in HE. destruct (IH (hist ++ d)) as (css & E1 & E2 & E3 & E4); [now apply Forall_app|].
    exists (cs :: css). cbn [List.length map List.concat]. split; [now rewrite E1|]. split; [now constructor|]. split.
    + econstructor; [discriminate|exact HE|exact HG|exact E3].
    + rewrite lz_decode_app, HE, E4. now rewrite app_assoc.
Qed.

Lemma fixed_stream css : css <> [] -> Forall (Forall code_ok) css -> forall off, exists w, stream_bits off (map FixedHuffman css) w /\ ((off + List.length w) mod 8 = 0)%nat.
Proof.
  intros NE H. induction H as [|cs css HC HCS IH]; [congruence|]. intro off. cbn [map]. destruct (fixed_body cs HC) as (w & HW).
  assert (BB : block_bits (off + 1) (FixedHuffman cs) (lsb 2 1 ++ w)) by now constructor. destruct css as [|c2 css].
  - destruct (pads_exists (off + 1 + List.length (lsb 2 1 ++ w))) as (k & HK). exists (true :: (lsb 2 1 ++ w) ++ repeat false k). split; [now constructor|].
    destruct HK as [_ HK]. cbn [List.length]. rewrite app_length, repeat_length. replace (off + S (List.length (lsb 2 1 ++ w) + k))%nat with (off + 1 + List.length (lsb 2 1 ++ w) + k)%nat by lia. exact HK.
  - destruct (IH ltac:(discriminate) (off + 1 + List.length (lsb 2 1 ++ w))%nat) as (ws & HS & HM). exists (false :: (lsb 2 1 ++ w) ++ ws). split.
    + apply SB_more; [discriminate|exact BB|exact HS].
    + cbn [List.length]. rewrite app_length. replace (off + S (List.length (lsb 2 1 ++ w) + List.length ws))%nat with (off + 1 + List.length (lsb 2 1 ++ w) + List.length ws)%nat by lia. exact HM.
Qed.

Lemma C90_lemma_exists : forall level chunks, 1 <= level <= 9 -> chunks <> [] -> Forall bytes_ok chunks ->
  exists file, bytes_ok file /\ harness_try_gzip level file = Ok tt
    /\ cat_run (mkSource file UnexpectedEof) new_sink = (Ok tt, mkSink (List.concat chunks) None)
    /\ exists codes, file_ends file (map FixedHuffman codes) Complete /\ List.length codes = List.length chunks.
Proof.
  intros level chunks HL NE HC. destruct (greedy_blocks level chunks HL HC [] ltac:(constructor)) as (css & E1 & E2 & E3 & E4).
  destruct (fixed_stream css ltac:(destruct css, chunks; try discriminate E1; congruence) E2 0) as (w & HS & HM). cbn [Nat.add] in HM.
  set (h := [31; 139; 8; 0; 0; 0; 0; 0; 0; 3]).
  assert (GH : gzip_header h) by (exists 0, [0; 0; 0; 0; 0; 3], [], [], [], []; repeat split; reflexivity).
  assert (EP := bits_of_pack_full w HM). rewrite <- EP in HS. exists (h ++ pack w ++ []).
  assert (HB : bytes_ok (h ++ pack w ++ [])) by (apply Forall_app; split; [repeat constructor; lia|rewrite app_nil_r; apply pack_bytes_ok]).
  assert (FE : file_ends (h ++ pack w ++ []) (map FixedHuffman css) Complete) by now apply FE_complete.
  split; [exact HB|]. split; [apply C90_lemma; [exact HB|eauto]|]. split; [|eauto].
  apply C47_lemma; [exact HB|]. exists h, (pack w), [], (map FixedHuffman css). split; [reflexivity|]. split; [exact GH|]. split; [exact HS|].
  rewrite flat_map_concat_map, map_map. cbn [block_codes]. rewrite map_id. exact E4.
Qed.
