(** Proofs: exactly which files the tracing example prints (C66). *)
From Verif Require Import Base M_bit M_lib M_circles M_gzip M_parse M_serialise M_all_refs M_technique M_trace M_example L_example Spec Clients Clients_tracing Clients_restore
  L_bits L_ring L_parse L_P_circ L_P_parse L_P_gzip L_search L_P_search L_tech L_P_tech L_trace L_strace L_P_trace L_P_e2e L_P_tracing L_restore L_level.
From Coq Require Import ZArith ZifyBool ZifyNat ZifyN.
Ltac Zify.zify_post_hook ::= Z.div_mod_to_equations.
Local Open Scope N_scope.
Local Open Scope model_scope.

Lemma slice_near_iff {A} (v : list A) pos :
  (exists l, slice v (pos - 5) (Nat.min (pos + 5) (List.length v)) = Ok l) <-> (pos - 5 <= List.length v)%nat.
Proof.
  unfold slice. destruct (Nat.ltb_spec (Nat.min (pos + 5) (List.length v)) (pos - 5)).
  - split; [intros (? & ?); discriminate|lia].
  - destruct (Nat.ltb_spec (List.length v) (Nat.min (pos + 5) (List.length v))); [lia|]. split; [lia|eauto].
Qed.

Lemma hints_shown_iff p d t : refs_of (p ++ d) (t_refs t) -> bytes_ok (p ++ d) ->
  forall codes hints s, List.length hints = List.length codes -> finishes (p ++ d) (sc_pos s) codes ->
  ((exists lines, listed_hints t d s hints codes = Ok lines)
   <-> codes = [] \/ (List.length p <= 5 + code_bytes (last codes (Literal 0)))%nat).
Proof.
  intros R HB. induction codes as [|c codes IH]; intros hints s HL HF; destruct hints as [|h hints]; try discriminate HL.
  { cbn [listed_hints]. split; eauto. }
  cbn [listed_hints]. assert (HE := finishes_emitted _ _ _ HF). assert (PE := emitted_pos c codes).
  rewrite app_length in HE.
  assert (HF' : finishes (p ++ d) (sc_pos (feedback t s c)) codes).
  { rewrite feedback_pos. change (c :: codes) with ([c] ++ codes) in HF. apply finishes_app in HF. destruct HF as [_ HF].
    cbn [emitted] in HF. now rewrite Nat.add_0_r in HF. }
  specialize (IH hints _ ltac:(cbn [List.length] in HL; lia) HF').
  destruct (guess_ok (p ++ d) t (cfg_lookahead (t_config t)) (sc_obscured s) (sc_pos s) R HB ltac:(rewrite app_length; lia)) as (gs & k & EG & _).
  assert (SL := slice_near_iff d (sc_pos s)).
  assert (CB : forall x, code_bytes x = N.to_nat (emitted_bytes x)) by apply code_bytes_emitted.
  split.
  - intros (lines & E). right. destruct (slice d _ _) as [loc| | |] eqn:ES; cbn [obind] in E; try discriminate.
    assert (Hs := proj1 SL (ex_intro _ loc eq_refl)). apply obind_ok in E. destruct E as (line & _ & E). apply obind_ok in E. destruct E as (more & E & _).
    assert (X := proj1 IH (ex_intro _ more E)). destruct codes as [|c1 codes].
    + cbn [last]. rewrite CB. cbn [emitted] in HE. lia.
    + destruct X as [X|X]; [discriminate|]. exact X.
  - intros [X|X]; [discriminate|].
    assert (Hs : (sc_pos s - 5 <= List.length d)%nat).
    { assert (Hlast : forall cs, cs <> [] -> (code_bytes (last cs (Literal 0)) <= emitted cs)%nat).
      { induction cs as [|y cs IHc]; intro NE; [contradiction|]. destruct cs as [|y1 cs]; [cbn [last emitted]; rewrite CB; lia|].
        change (last (y :: y1 :: cs) (Literal 0)) with (last (y1 :: cs) (Literal 0)). specialize (IHc ltac:(discriminate)). cbn [emitted] in *. lia. }
      specialize (Hlast (c :: codes) ltac:(discriminate)). lia. }
    destruct (proj2 SL Hs) as (loc & ES). rewrite ES. cbn [obind].
    assert (IX : codes = [] \/ (List.length p <= 5 + code_bytes (last codes (Literal 0)))%nat).
    { destruct codes as [|c1 codes]; [now left|]. right. exact X. }
    destruct (proj2 IH IX) as (more & EM). destruct h; unfold sc_codes; rewrite ?EG; cbn [obind]; rewrite EM; cbn [obind]; eauto.
Qed.

Lemma try_trace_iff name level config p d refs codes hints : Config_gzip level = Ok config ->
  bytes_ok p -> bytes_ok d -> Forall code_ok codes -> encodes p d codes ->
  with_sixteen p d (match insert_only_below_length (cfg_wams config) with Some l => l | None => 65535 end) = Ok refs ->
  trace codes (mkTechnique config refs) = Ok hints ->
  ((exists lines, listed_try_trace refs name config codes d = Ok lines)
   <-> literals_found p d hints codes /\ (codes = [] \/ (List.length p <= 5 + code_bytes (last codes (Literal 0)))%nat)).
Proof.
  intros EC B1 B2 HC HE EW ET.
  destruct (technique_of config _ _ _ _ EW) as (R & EP & EL & EPre).
  destruct (trace_lemma config p d _ refs codes B1 B2 EW HE) as (h & E & L & HI & _ & _). rewrite ET in E. injection E as <-.
  assert (HS := hints_shown_iff p d (mkTechnique config refs) R ltac:(apply Forall_app; split; assumption) codes hints (scanner (mkTechnique config refs)) L
                  ltac:(rewrite EP; now apply finishes_encodes)).
  destruct (C43_lemma hints (hints_ok_of_codes _ _ HC HI)) as (bs & _ & _ & EV).
  assert (RC := restored_codes config p d _ refs codes hints B1 B2 EW HE ET).
  assert (FI := found_iff config p d _ refs codes hints B1 B2 EW HE ET).
  unfold listed_try_trace, validate. rewrite ET. cbn [obind]. rewrite RC.
  destruct (looked_up d (List.length p) hints codes) as [o|]; cbn [opt_result obind].
  - destruct (slice_eqb Code_eqb codes o) eqn:ES.
    + apply slice_eqb_true in ES; [|intros a b; apply Code_eqb_spec]. subst o. cbn [obind]. rewrite EV. cbn [obind]. split.
      * intros (lines & EX). apply obind_ok in EX. destruct EX as (more & EX & _). split; [now apply FI|apply HS; eauto].
      * intros [_ X]. apply HS in X. destruct X as (more & EX). rewrite EX. cbn [obind]. eauto.
    + cbn [obind]. split; [intros (? & ?); discriminate|]. intros [F _]. apply FI in F. injection F as ->. rewrite slice_eqb_refl in ES; [discriminate|]. intro a. now apply Code_eqb_spec.
  - split; [intros (? & ?); discriminate|]. intros [F _]. apply FI in F. discriminate.
Qed.

Lemma found_empty level p d : found_at_level level p d [].
Proof. intros h _ i b _ H. destruct i; discriminate. Qed.

Lemma print_iff hist d codes data h1 : bytes_ok hist -> Forall code_ok codes -> ring 32768 hist d ->
  lz_decode 32768 hist codes = Some h1 -> h1 = hist ++ data ->
  (exists d', snd (listed_print codes d) = d' /\ ring 32768 (hist ++ data) d')
  /\ ((exists lines, fst (listed_print codes d) = Ok lines)
      <-> codes = [] \/ found_at_level 1 (lastn (N.to_nat 32768) hist) data codes /\ found_at_level 6 (lastn (N.to_nat 32768) hist) data codes
          /\ (List.length (lastn (N.to_nat 32768) hist) <= 5 + code_bytes (last codes (Literal 0)))%nat).
Proof.
  intros HB HC R HE ->. unfold listed_print. rewrite (ring_vec_lastn _ _ R).
  assert (X := block_run hist d (FixedHuffman codes) R). cbn [block_codes] in X. rewrite HE in X.
  destruct X as (data' & d' & ED & EB & _ & R'). apply app_inv_head in ED. subst data'. cbn [decompressed_block] in EB. rewrite EB. cbn [written fst snd].
  split; [eauto|].
  assert (HD : bytes_ok data) by (assert (X := lz_decode_bytes _ _ _ _ HB HC HE); apply Forall_app in X; apply X).
  assert (HP := lastn_bytes (N.to_nat 32768) hist HB). apply encodes_window in HE.
  set (p := lastn (N.to_nat 32768) hist) in *.
  destruct (with_sixteen_ok p data 4) as (r1 & E1 & _). destruct (with_sixteen_ok p data 6) as (r2 & E2 & _). destruct (with_sixteen_ok p data 65535) as (r3 & E3 & _).
  rewrite E1, E2, E3. cbn [obind].
  destruct (Config_gzip 1) as [c1| | |] eqn:G1; try discriminate. destruct Config_gzip_16_default as [c6| | |] eqn:G6; try discriminate. cbn [obind].
  unfold Config_gzip_16_default in G6.
  assert (W1 : with_sixteen p data (match insert_only_below_length (cfg_wams c1) with Some l => l | None => 65535 end) = Ok r1) by (injection G1 as <-; exact E1).
  assert (W6 : with_sixteen p data (match insert_only_below_length (cfg_wams c6) with Some l => l | None => 65535 end) = Ok r3) by (injection G6 as <-; exact E3).
  destruct (C41_lemma c1 p data _ r1 codes HP HD W1 HE) as (h1 & T1 & _). destruct (C41_lemma c6 p data _ r3 codes HP HD W6 HE) as (h6 & T6 & _).
  assert (I1 := try_trace_iff "gzip --fast" 1 c1 p data r1 codes h1 G1 HP HD HC HE W1 T1).
  assert (I6 := try_trace_iff "gzip [--default]" 6 c6 p data r3 codes h6 G6 HP HD HC HE W6 T6).
  rewrite <- (found_level_iff 1 c1 p data r1 codes h1 G1 HP HD W1 T1) in I1. rewrite <- (found_level_iff 6 c6 p data r3 codes h6 G6 HP HD W6 T6) in I6.
  assert (EQ : codes = [] \/ found_at_level 1 p data codes /\ found_at_level 6 p data codes /\ (List.length p <= 5 + code_bytes (last codes (Literal 0)))%nat
     <-> (found_at_level 1 p data codes /\ (codes = [] \/ (List.length p <= 5 + code_bytes (last codes (Literal 0)))%nat))
         /\ (found_at_level 6 p data codes /\ (codes = [] \/ (List.length p <= 5 + code_bytes (last codes (Literal 0)))%nat))).
  { split; [|tauto]. intros [->|X]; [|tauto]. repeat split; try apply found_empty; now left. }
  rewrite EQ, <- I1, <- I6. split.
  - intros (lines & E). apply obind_ok in E. destruct E as (l1 & EE1 & E). apply obind_ok in E. destruct E as (l6 & EE6 & _). eauto.
  - intros [(l1 & EE1) (l6 & EE6)]. rewrite EE1. cbn [obind]. rewrite EE6. cbn [obind]. eauto.
Qed.

Lemma bind_fst_ok {S A B} (m : M S A) (k : A -> M S B) s x : fst (bind m k s) = Ok x ->
  exists a, fst (m s) = Ok a /\ fst (k a (snd (m s))) = Ok x.
Proof. unfold bind. destruct (m s) as [[a| | |] s']; cbn [fst snd]; intro H; try discriminate. eauto. Qed.
Lemma bind_fst_intro {S A B} (m : M S A) (k : A -> M S B) s a x : fst (m s) = Ok a -> fst (k a (snd (m s))) = Ok x -> fst (bind m k s) = Ok x.
Proof. unfold bind. destruct (m s) as [[a'| | |] s']; cbn [fst snd]; intro H; try discriminate. injection H as ->. auto. Qed.

Lemma ok_iff_bind {S A B} (m : M S A) (f : A -> B) s : (exists x, fst (bind m (fun a => ret (f a)) s) = Ok x) <-> exists a, fst (m s) = Ok a.
Proof.
  split.
  - intros (x & E). apply bind_fst_ok in E. destruct E as (a & E & _). eauto.
  - intros (a & E). eexists. eapply bind_fst_intro; [exact E|]. reflexivity.
Qed.
Lemma snd_bind_ret {S A B} (m : M S A) (f : A -> B) s : snd (bind m (fun a => ret (f a)) s) = snd (m s).
Proof. unfold bind. destruct (m s) as [[a'| | |] s']; reflexivity. Qed.

Lemma blocks_iff blocks : forall id hist d, bytes_ok hist -> Forall block_wf blocks -> ring 32768 hist d ->
  (exists out, lz_decode 32768 hist (flat_map block_codes blocks) = Some out) ->
  ((exists lines, fst (listed_blocks id blocks d) = Ok lines) <-> printable hist blocks).
Proof.
  induction blocks as [|b blocks IH]; intros id hist d HB HW R (out & HE).
  { split; [constructor|]. intros _. eexists. reflexivity. }
  inversion HW as [|? ? WB HW']; subst. cbn [flat_map] in HE. rewrite lz_decode_app in HE.
  destruct (lz_decode 32768 hist (block_codes b)) as [h1|] eqn:E1; [|discriminate].
  assert (X := block_run hist d b R). rewrite E1 in X. destruct X as (data & d0 & EH & _ & _ & R0). subst h1. clear d0 R0.
  assert (CO : Forall code_ok (block_codes b)).
  { unfold block_wf in WB. destruct b; cbn [block_codes]; auto. apply Forall_map. apply WB. }
  assert (HB' : bytes_ok (hist ++ data)) by (eapply lz_decode_bytes; [exact HB|exact CO|exact E1]).
  assert (ST : (exists d', snd (listed_block id b d) = d' /\ ring 32768 (hist ++ data) d')
     /\ ((exists lines, fst (listed_block id b d) = Ok lines) <->
         ((exists dd, b = Uncompressed dd)
          \/ block_codes b = []
          \/ found_at_level 1 (lastn (N.to_nat 32768) hist) data (block_codes b)
             /\ found_at_level 6 (lastn (N.to_nat 32768) hist) data (block_codes b)
             /\ (List.length (lastn (N.to_nat 32768) hist) <= 5 + code_bytes (last (block_codes b) (Literal 0)))%nat))).
  { unfold listed_block. rewrite ok_iff_bind, snd_bind_ret. destruct b as [dd|cs|v cs]; cbn [block_codes] in *.
    - rewrite lz_literals in E1. injection E1 as E1. apply app_inv_head in E1. subst dd. destruct (ring_extend _ data _ _ R) as (d' & E & R'). rewrite E. cbn [fst snd].
      split; [eauto|]. split; [eauto|intros _; eauto].
    - rewrite ok_iff_bind, snd_bind_ret. destruct (print_iff hist d cs data _ HB CO R E1 eq_refl) as [S1 S2]. split; [exact S1|]. rewrite S2.
      split; [tauto|]. intros [(dd & X)|X]; [discriminate|exact X].
    - rewrite ok_iff_bind, snd_bind_ret. destruct (print_iff hist d cs data _ HB CO R E1 eq_refl) as [S1 S2]. split; [exact S1|]. rewrite S2.
      split; [tauto|]. intros [(dd & X)|X]; [discriminate|exact X]. }
  destruct ST as [(d' & ED & R') ST]. specialize (IH (S id) (hist ++ data) d' HB' HW' R' ltac:(eauto)).
  cbn [listed_blocks]. split.
  - intros (lines & E). apply bind_fst_ok in E. destruct E as (l1 & EB & E). rewrite ED in E. apply bind_fst_ok in E. destruct E as (l2 & EM & _).
    apply (pri_cons hist data); [exact E1|apply ST; eauto|apply IH; eauto].
  - intro T. inversion T as [|? data' ? ? HE' HT TS]; subst. rewrite E1 in HE'. injection HE' as E'. apply app_inv_head in E'. subst data'.
    apply ST in HT. destruct HT as (l1 & EB). apply IH in TS. destruct TS as (l2 & EM).
    exists (l1 ++ l2). eapply bind_fst_intro; [exact EB|]. eapply bind_fst_intro; [exact EM|]. reflexivity.
Qed.

Lemma C66_lemma_exact : forall file e header stream trailer blocks, bytes_ok file ->
  file = header ++ stream ++ trailer -> gzip_header header -> stream_bits 0 blocks (bits_of_bytes stream) ->
  (exists data, encodes [] data (flat_map block_codes blocks)) ->
  ((exists lines, example_run (mkSource file e) = (lines, Ok tt)) <-> printable [] blocks).
Proof.
  intros file e h used tail blocks HB EF GH SB (data & HE).
  assert (V : (exists lines, example_run (mkSource file e) = (lines, Ok tt)) <-> (exists lines, listed_run (mkSource file e) = Ok lines)).
  { split; intros (lines & X); exists lines; now apply run_ok. }
  rewrite V. clear V. unfold listed_run.
  assert (EH : discard_header (mkSource file e) = (Ok h, mkSource (used ++ tail) e)) by (apply C31_lemma; auto).
  rewrite EH. cbn [rest]. assert (HBB : bytes_ok (used ++ tail)) by (rewrite EF in HB; apply Forall_app in HB; apply HB).
  destruct (proj2 (parse_all_iff (used ++ tail) e blocks tail HBB)) as (it & EP & _); [eauto|].
  destruct (parse_all_wf _ _ _ _ HBB EP) as (WF & _).
  assert (DF := listed_follows (8 * List.length (used ++ tail) + 2) 0 (parse_deflate (mkSource (used ++ tail) e))).
  unfold parse_all in EP. cbn [rest] in EP. rewrite EP in DF.
  destruct (ring_new 32768 ltac:(lia)) as (d & E0 & R0). unfold cb_new. change (cb_with_capacity 32768) with (cb_with_capacity (32 * 1024)) in E0.
  rewrite E0. cbn [obind]. rewrite DF. apply blocks_iff; auto; [constructor|]. unfold encodes in HE. cbn [app] in HE. eauto.
Qed.

(** A compressed block after 264 bytes or more. *)
Lemma printable_app before : forall hist b after, printable hist (before ++ b :: after) ->
  exists more, lz_decode 32768 hist (flat_map block_codes before) = Some (hist ++ more) /\ printable (hist ++ more) (b :: after).
Proof.
  induction before as [|x before IH]; intros hist b after H.
  - exists []. cbn [flat_map lz_decode app] in *. rewrite app_nil_r. auto.
  - cbn [app] in H. inversion H as [|? data ? ? HE _ HS]; subst. destruct (IH _ _ _ HS) as (more & E & P).
    exists (data ++ more). cbn [flat_map]. rewrite lz_decode_app, HE, app_assoc. auto.
Qed.

Lemma C66_lemma_never : forall file e header stream trailer before b after data, bytes_ok file ->
  file = header ++ stream ++ trailer -> gzip_header header -> stream_bits 0 (before ++ b :: after) (bits_of_bytes stream) ->
  encodes [] data (flat_map block_codes before) -> (264 <= List.length data)%nat ->
  (exists more, encodes [] more (flat_map block_codes (before ++ b :: after))) ->
  (forall d, b <> Uncompressed d) -> block_codes b <> [] ->
  forall lines, example_run (mkSource file e) <> (lines, Ok tt).
Proof.
  intros file e h used tail before b after data HB EF GH SB HD HL HE HN HC lines EX.
  assert (P := proj1 (C66_lemma_exact file e h used tail _ HB EF GH SB HE) (ex_intro _ lines EX)).
  apply printable_app in P. destruct P as (more & E & P). unfold encodes in HD. cbn [app] in *. rewrite HD in E. injection E as <-.
  inversion P as [|? dd ? ? _ HT _]; subst. destruct HT as [(d & X)|[X|(_ & _ & X)]]; [destruct (HN _ X)|contradiction|].
  assert (HBB : bytes_ok (used ++ tail)) by (apply Forall_app in HB; apply HB).
  destruct (proj2 (parse_all_iff (used ++ tail) e (before ++ b :: after) tail HBB)) as (it & EP & _); [eauto|].
  destruct (parse_all_wf _ _ _ _ HBB EP) as (WF & _). apply Forall_app in WF. destruct WF as [_ WF]. inversion WF as [|? ? WB _]; subst.
  assert (CO : Forall code_ok (block_codes b)).
  { unfold block_wf in WB. destruct b; cbn [block_codes]; auto. apply Forall_map. apply WB. }
  assert (LC : (code_bytes (last (block_codes b) (Literal 0)) <= 258)%nat).
  { rewrite Forall_forall in CO. assert (IN : In (last (block_codes b) (Literal 0)) (block_codes b)).
    { destruct (block_codes b) as [|c cs] using rev_ind; [contradiction|]. rewrite last_last. apply in_or_app. right. now left. }
    specialize (CO _ IN). destruct (last (block_codes b) (Literal 0)) as [x|r]; cbn [code_bytes]; [lia|]. destruct CO. unfold ref_len. lia. }
  unfold lastn in X. rewrite skipn_length in X. lia.
Qed.
