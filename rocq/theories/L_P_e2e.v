(** Proofs of C52. *)
From Verif Require Import Base M_bit M_lib M_circles M_parse M_serialise M_all_refs M_technique M_trace Spec Clients
  L_bits L_ring L_parse L_P_circ L_P_parse L_search L_P_search L_tech L_P_tech L_trace L_strace L_P_trace.
From Coq Require Import ZArith ZifyBool ZifyNat ZifyN.
Ltac Zify.zify_post_hook ::= Z.div_mod_to_equations.
Local Open Scope N_scope.
Local Open Scope model_scope.

Lemma obind_ok {A B} (o : outcome A) (k : A -> outcome B) b : obind o k = Ok b -> exists a, o = Ok a /\ k a = Ok b.
Proof. destruct o; cbn [obind]; try discriminate. eauto. Qed.

Lemma trace_bytes_back level preroll data codes t : trace_to_bytes level preroll data codes = Ok t ->
  bytes_to_codes level preroll data t = Ok codes.
Proof.
  unfold trace_to_bytes, try_gzip, tracer_try, bytes_to_codes. intro E.
  apply obind_ok in E. destruct E as (hints & E & EWR). apply obind_ok in E. destruct E as (config & EC & E).
  apply obind_ok in E. destruct E as (refs & EW & E). apply obind_ok in E. destruct E as (tr & EV & E).
  apply obind_ok in E. destruct E as (bs & EB & E). injection E as <-.
  unfold validate in EV. apply obind_ok in EV. destruct EV as (tr' & ET & EV). apply obind_ok in EV. destruct EV as (cs & ER & EV).
  destruct (slice_eqb Code_eqb codes cs) eqn:ES; [|discriminate]. injection EV as <-.
  apply slice_eqb_true in ES; [|intros a b; apply Code_eqb_spec]. subst cs.
  unfold st_verify in EB. rewrite EWR in EB. cbn [obind] in EB. destruct (fst (st_read (mkSource t UnexpectedEof))) as [back| | |] eqn:EREAD; try discriminate.
  destruct (slice_eqb Trace_eqb tr' back) eqn:ES2; [|discriminate]. apply slice_eqb_true in ES2; [|intros a b; apply Trace_eqb_spec]. subst back.
  rewrite EC. cbn [obind]. rewrite EW. cbn [obind]. exact ER.
Qed.

Lemma block_run hist dict b : ring 32768 hist dict ->
  match lz_decode 32768 hist (block_codes b) with
  | Some h => exists data dict', h = hist ++ data /\ decompressed_block b (dict, new_sink) = (Ok tt, (dict', mkSink data None))
       /\ cb_extend dict data = Ok dict' /\ ring 32768 h dict'
  | None => exists e st, decompressed_block b (dict, new_sink) = (Err e, st)
  end.
Proof.
  intro R. destruct (lz_decode 32768 hist (block_codes b)) as [h|] eqn:E.
  - destruct (lz_decode_grows _ _ _ _ E) as (data & ->). destruct (block_emits _ _ _ _ E dict new_sink R) as (d' & EB & EX).
    exists data, d'. split; [reflexivity|]. specialize (EX eq_refl). split; [exact EB|]. split; [exact EX|]. eapply ring_extended; eauto.
  - destruct (lz_decode_none _ _ _ E) as (good & r & more & data & EC & EG & B).
    assert (EF : flat_map block_codes [b] = good ++ Reference r :: more) by (cbn [flat_map]; now rewrite app_nil_r).
    destruct (blocks_fail 32768 [b] hist good r more data EF EG B dict new_sink R) as (b' & EB).
    cbn [decompress_blocks] in EB. unfold bind in EB. destruct (decompressed_block b (dict, new_sink)) as [[u|e|m|] st]; try discriminate. eauto.
Qed.

Lemma ring_vec_ok hist dict : ring 32768 hist dict -> exists l, cb_vec true dict = Ok l /\ (hist = [] -> l = []).
Proof.
  intro R. unfold cb_vec. assert (V : cb_valid dict = N.min 32768 (N.of_nat (List.length hist))) by apply R.
  destruct (N.eqb_spec (cb_valid dict) 65535); [lia|]. rewrite (ring_vec_loop 32768 hist) by (auto; lia).
  eexists. split; [reflexivity|]. intros ->. unfold lastn. now rewrite skipn_nil.
Qed.

Lemma round_trip level blocks : forall hist dict parts, ring 32768 hist dict -> take_apart level blocks dict = Ok parts ->
  put_together level parts dict = Ok blocks
  /\ lz_decode 32768 hist (flat_map block_codes blocks) = Some (hist ++ flat_map part_data parts).
Proof.
  induction blocks as [|b blocks IH]; intros hist dict parts R E; cbn [take_apart] in E.
  - injection E as <-. cbn [put_together flat_map lz_decode]. rewrite app_nil_r. auto.
  - apply obind_ok in E. destruct E as (preroll & EP & E). assert (X := block_run hist dict b R). cbn [flat_map]. rewrite lz_decode_app.
    destruct (lz_decode 32768 hist (block_codes b)) as [h|] eqn:ED.
    + destruct X as (data & dict' & -> & EB & EX & R'). rewrite EB in E. cbn [obind written] in E.
      apply obind_ok in E. destruct E as (p & EPart & E). apply obind_ok in E. destruct E as (ps & ES & E). injection E as <-.
      destruct (IH _ _ _ R' ES) as [IH1 IH2]. cbn [put_together flat_map]. rewrite EP. cbn [obind].
      assert (PD : part_data p = data /\ match p with
                | PStored data => Ok (Uncompressed data)
                | PFixed data t => codes <-? bytes_to_codes level preroll data t ;; Ok (FixedHuffman codes)
                | PDynamic trees data t => codes <-? bytes_to_codes level preroll data t ;; Ok (DynamicHuffman trees codes)
                end = Ok b).
      { destruct b as [d|cs|trees cs].
        - injection EPart as <-. split; [reflexivity|]. do 2 f_equal. cbn [decompressed_block block_codes] in ED. rewrite lz_literals in ED. injection ED as ED. now apply app_inv_head in ED.
        - apply obind_ok in EPart. destruct EPart as (t & ET & EPart). injection EPart as <-. split; [reflexivity|]. rewrite (trace_bytes_back _ _ _ _ _ ET). reflexivity.
        - apply obind_ok in EPart. destruct EPart as (t & ET & EPart). injection EPart as <-. split; [reflexivity|]. rewrite (trace_bytes_back _ _ _ _ _ ET). reflexivity. }
      destruct PD as [PD1 PD2]. rewrite PD2, PD1. cbn [obind]. rewrite EX. cbn [obind]. rewrite IH1. cbn [obind]. split; [reflexivity|].
      rewrite IH2. now rewrite app_assoc.
    + destruct X as (e & st & EB). rewrite EB in E. destruct st as [d o]. cbn [obind] in E. discriminate.
Qed.

Lemma C52_lemma : forall level used tail e blocks it dictionary parts,
  bytes_ok (used ++ tail) ->
  parse_all (mkSource (used ++ tail) e) = (Ok blocks, it) ->
  br_into_inner (bi_inner it) = Ok (mkSource tail e) ->
  cb_new = Ok dictionary ->
  take_apart level blocks dictionary = Ok parts ->
  put_together level parts dictionary = Ok blocks
  /\ encodes [] (flat_map part_data parts) (flat_map block_codes blocks)
  /\ (canonical_stream 0 blocks (bits_of_bytes used) -> compress_all blocks = Ok used).
Proof.
  intros level used tail e blocks it dict parts HB EP EI EN ET. destruct (ring_new 32768 ltac:(lia)) as (d0 & E0 & R0).
  assert (d0 = dict) as -> by (assert (X0 : cb_with_capacity 32768 = Ok dict) by exact EN; congruence). destruct (round_trip level blocks [] dict parts R0 ET) as [H1 H2].
  split; [exact H1|]. split; [exact H2|]. apply (C19_exact_lemma used tail e blocks it HB EP EI).
Qed.

Lemma lz_copy_bytes n dist : forall h, bytes_ok h -> bytes_ok (lz_copy n dist h).
Proof.
  induction n as [|n IH]; intros h H; cbn [lz_copy]; [assumption|]. apply IH. apply Forall_app. split; [assumption|]. constructor; [|constructor].
  destruct (nth_in_or_default (List.length h - dist) h 0) as [X| ->]; [|reflexivity]. unfold bytes_ok in H. rewrite Forall_forall in H. now apply H.
Qed.
Lemma lz_decode_bytes cap cs : forall h res, bytes_ok h -> Forall code_ok cs -> lz_decode cap h cs = Some res -> bytes_ok res.
Proof.
  induction cs as [|[y|r] cs IH]; intros h res HH HC E; cbn [lz_decode] in E.
  - injection E as <-. assumption.
  - inversion HC; subst. apply (IH _ _ ) in E; auto. apply Forall_app. split; [assumption|]. constructor; [assumption|constructor].
  - inversion HC; subst. destruct (_ && _); [|discriminate]. apply IH in E; auto. now apply lz_copy_bytes.
Qed.

Lemma level_config level : 1 <= level <= 9 -> exists c, Config_gzip level = Ok c.
Proof.
  intro H. destruct (nth_error gzip_levels (N.to_nat (level - 1))) as [[[[g l] n] c]|] eqn:E.
  - destruct (C53_lemma level ltac:(lia)) as [_ X]. destruct (X g l n c ltac:(lia) E) as (cfg & EC & _). eauto.
  - apply nth_error_None in E. change (List.length gzip_levels) with 9%nat in E. lia.
Qed.


Lemma lz_copy_window n dist : forall pre h, (dist <= List.length h)%nat -> (0 < dist)%nat -> lz_copy n dist (pre ++ h) = pre ++ lz_copy n dist h.
Proof.
  induction n as [|n IH]; intros pre h HD HP; cbn [lz_copy]; [reflexivity|]. rewrite <- IH by (rewrite ?app_length; lia).
  f_equal. rewrite <- app_assoc. do 3 f_equal. rewrite app_length, app_nth2 by lia. f_equal. lia.
Qed.
Lemma lz_decode_window cap cs : forall pre h, (cap <= N.of_nat (List.length h)) ->
  lz_decode cap (pre ++ h) cs = option_map (app pre) (lz_decode cap h cs).
Proof.
  induction cs as [|[y|r] cs IH]; intros pre h HL; cbn [lz_decode].
  - reflexivity.
  - rewrite <- app_assoc. apply IH. rewrite app_length. lia.
  - destruct (1 <=? r_dist r) eqn:E1; [|reflexivity]. destruct (r_dist r <=? cap) eqn:E2; [|reflexivity]. cbn [andb].
    replace (r_dist r <=? N.of_nat (List.length (pre ++ h))) with true by (rewrite app_length; lia).
    replace (r_dist r <=? N.of_nat (List.length h)) with true by lia.
    rewrite lz_copy_window by lia. apply IH. rewrite lz_copy_new, app_length. lia.
Qed.

Lemma encodes_window hist data cs : lz_decode 32768 hist cs = Some (hist ++ data) -> encodes (lastn (N.to_nat 32768) hist) data cs.
Proof.
  intro E. unfold encodes. assert (S := firstn_skipn (List.length hist - N.to_nat 32768) hist). fold (lastn (N.to_nat 32768) hist) in S.
  destruct (Nat.le_gt_cases (N.to_nat 32768) (List.length hist)) as [L|L].
  - rewrite <- S in E at 1. rewrite lz_decode_window in E by (unfold lastn; rewrite skipn_length; lia).
    destruct (lz_decode 32768 (lastn (N.to_nat 32768) hist) cs) as [res|]; cbn [option_map] in E; [|discriminate]. injection E as E.
    f_equal. apply (app_inv_head (firstn (List.length hist - N.to_nat 32768) hist)). rewrite app_assoc, S. exact E.
  - unfold lastn. replace (List.length hist - N.to_nat 32768)%nat with O by lia. exact E.
Qed.

Lemma ring_vec_lastn hist dict : ring 32768 hist dict -> cb_vec true dict = Ok (lastn (N.to_nat 32768) hist).
Proof.
  intro R. unfold cb_vec. assert (V : cb_valid dict = N.min 32768 (N.of_nat (List.length hist))) by apply R.
  destruct (N.eqb_spec (cb_valid dict) 65535); [lia|]. rewrite (ring_vec_loop 32768 hist) by (auto; lia).
  unfold lastn. do 2 f_equal. lia.
Qed.

Lemma codes_trace level hist data codes : 1 <= level <= 9 -> bytes_ok hist -> Forall code_ok codes ->
  lz_decode 32768 hist codes = Some (hist ++ data) ->
  (hist = [] \/ forall config refs hints, Config_gzip level = Ok config ->
          with_sixteen (lastn (N.to_nat 32768) hist) data
            (match insert_only_below_length (cfg_wams config) with Some l => l | None => 65535 end) = Ok refs ->
          trace codes (mkTechnique config refs) = Ok hints -> ~ In ActuallyLiteral hints) ->
  exists t, trace_to_bytes level (lastn (N.to_nat 32768) hist) data codes = Ok t.
Proof.
  intros HL HB HC HE HT.
  assert (HD : bytes_ok data) by (assert (X := lz_decode_bytes _ _ _ _ HB HC HE); apply Forall_app in X; apply X).
  assert (HX : exists hints, try_gzip level (lastn (N.to_nat 32768) hist) data codes = Ok hints).
  { destruct HT as [->|HT].
    - destruct (C46_lemma level data codes HL HD HC HE) as (hints & ET & _). eauto.
    - destruct (level_config level HL) as (c & EC). assert (HP : bytes_ok (lastn (N.to_nat 32768) hist)).
      { assert (S := firstn_skipn (List.length hist - N.to_nat 32768) hist). rewrite <- S in HB. apply Forall_app in HB. apply HB. }
      apply encodes_window in HE.
      destruct (with_sixteen_ok (lastn (N.to_nat 32768) hist) data (match insert_only_below_length (cfg_wams c) with Some l => l | None => 65535 end)) as (refs & EW & _).
      destruct (C41_lemma c _ data _ refs codes HP HD EW HE) as (hints & ET & _). exists hints.
      apply (C46_lemma_preroll level c _ data codes refs); auto. eapply HT; eauto. }
  destruct HX as (hints & ET). destruct (write_spec (S (List.length hints)) hints ltac:(lia)) as (bs & EW & _).
  exists bs. unfold trace_to_bytes. rewrite ET. exact EW.
Qed.

Lemma take_apart_ok level : 1 <= level <= 9 -> forall hist blocks, traceable level hist blocks -> bytes_ok hist -> Forall block_wf blocks ->
  forall dict, ring 32768 hist dict -> exists parts, take_apart level blocks dict = Ok parts.
Proof.
  intros HL hist blocks T. induction T as [|hist data b blocks HE HT T IH]; intros HB HW dict R; [now exists []|].
  inversion HW as [|b0 l0 WB WS]; subst. cbn [take_apart]. rewrite (ring_vec_lastn hist dict R). cbn [obind].
  assert (X := block_run hist dict b R). rewrite HE in X. destruct X as (data' & dict' & ED & EB & _ & R'). apply app_inv_head in ED. subst data'.
  rewrite EB. cbn [obind written]. 
  assert (HB' : bytes_ok (hist ++ data)).
  { eapply lz_decode_bytes; [exact HB| |exact HE]. unfold block_wf in WB. destruct b; cbn [block_codes]; auto. apply Forall_map. apply WB. }
  destruct (IH HB' WS dict' R') as (ps & EPS).
  assert (HP : exists p, match b with
            | Uncompressed _ => Ok (PStored data)
            | FixedHuffman codes => t <-? trace_to_bytes level (lastn (N.to_nat 32768) hist) data codes ;; Ok (PFixed data t)
            | DynamicHuffman trees codes => t <-? trace_to_bytes level (lastn (N.to_nat 32768) hist) data codes ;; Ok (PDynamic trees data t)
            end = Ok p).
  { destruct b as [d|cs|v cs]; [eauto| |]; cbn [block_codes] in *;
      (destruct (codes_trace level hist data cs HL HB WB HE) as (t & ET);
       [destruct HT as [H|[(d & H)|H]]; [now left|discriminate|now right]|rewrite ET; cbn [obind]; eauto]). }
  destruct HP as (p & EPP). rewrite EPP. cbn [obind]. rewrite EPS. cbn [obind]. eauto.
Qed.

Lemma C52_lemma_traceable : forall level bytes e blocks it dictionary, 1 <= level <= 9 ->
  bytes_ok bytes ->
  parse_all (mkSource bytes e) = (Ok blocks, it) ->
  traceable level [] blocks ->
  cb_new = Ok dictionary ->
  exists parts, take_apart level blocks dictionary = Ok parts.
Proof.
  intros level bytes e blocks it dict HL HB EP HT EN. destruct (ring_new 32768 ltac:(lia)) as (d0 & E0 & R0).
  assert (d0 = dict) as -> by (assert (X0 : cb_with_capacity 32768 = Ok dict) by exact EN; congruence).
  destruct (parse_all_wf _ _ _ _ HB EP) as [WF _]. apply (take_apart_ok level HL [] blocks HT); auto. constructor.
Qed.

Lemma C52_lemma_refuted : exists bytes blocks it dictionary, bytes_ok bytes
  /\ parse_all (mkSource bytes UnexpectedEof) = (Ok blocks, it)
  /\ br_into_inner (bi_inner it) = Ok (mkSource [] UnexpectedEof)
  /\ compress_all blocks = Ok bytes
  /\ cb_new = Ok dictionary
  /\ forall level, 1 <= level <= 9 -> take_apart level blocks dictionary = Panic "index out of bounds".
Proof.
  exists [98; 100; 98; 102; 1; 140; 149; 137; 153; 133; 19; 0].
  exists [FixedHuffman [Literal 1; Literal 2; Literal 3; Literal 4]; FixedHuffman [Literal 5; Literal 2; Literal 3; Literal 4; Literal 9]].
  eexists. eexists. split; [repeat constructor|]. split; [vm_compute; reflexivity|]. split; [vm_compute; reflexivity|].
  split; [vm_compute; reflexivity|]. split; [reflexivity|]. intros level HL.
  assert (X : In level [1; 2; 3; 4; 5; 6; 7; 8; 9]).
  { assert (level = 1 \/ level = 2 \/ level = 3 \/ level = 4 \/ level = 5 \/ level = 6 \/ level = 7 \/ level = 8 \/ level = 9) by lia. cbn [In]. intuition. }
  revert level HL X. 
  assert (F : forall level, In level [1; 2; 3; 4; 5; 6; 7; 8; 9] -> take_apart level
    [FixedHuffman [Literal 1; Literal 2; Literal 3; Literal 4]; FixedHuffman [Literal 5; Literal 2; Literal 3; Literal 4; Literal 9]]
    (match cb_with_capacity 32768 with Ok d => d | _ => mkCirc [] 0 0 end) = Panic "index out of bounds").
  { apply Forall_forall. repeat (constructor; [vm_compute; reflexivity|]). constructor. }
  intros level _ X. exact (F level X).
Qed.
