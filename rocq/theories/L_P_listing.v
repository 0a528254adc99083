(** Proof of C77. *)
From Verif Require Import Base M_bit M_lib M_circles M_gzip M_parse M_serialise M_all_refs M_technique M_trace M_example L_example Spec Spec_encoder Clients Clients_encoder Clients_tracing Clients_restore
  Clients_listing L_bits L_ring L_parse L_P_circ L_P_parse L_P_gzip L_search L_P_search L_tech L_P_tech L_trace L_strace L_P_trace L_P_e2e L_P_tracing L_restore L_P_tracing2 L_P_encoder L_P_exact L_level.
From Coq Require Import ZArith ZifyBool ZifyNat ZifyN.
Ltac Zify.zify_post_hook ::= Z.div_mod_to_equations.
Local Open Scope N_scope.
Local Open Scope model_scope.

Lemma slice_context {A} (v : list A) pos l : slice v (pos - 5) (Nat.min (pos + 5) (List.length v)) = Ok l ->
  l = firstn (pos + 5 - (pos - 5)) (skipn (pos - 5) v).
Proof.
  unfold slice. destruct (Nat.ltb_spec (Nat.min (pos + 5) (List.length v)) (pos - 5)); [discriminate|].
  destruct (Nat.ltb_spec (List.length v) (Nat.min (pos + 5) (List.length v))); [discriminate|]. intros [= <-].
  rewrite skipn_firstn_comm. destruct (Nat.le_ge_cases (pos + 5) (List.length v)) as [X|X].
  - now rewrite Nat.min_l by lia.
  - rewrite Nat.min_r by lia. rewrite !firstn_all2; [reflexivity|rewrite skipn_length; lia..].
Qed.

(** The guess of a level at a position, and the scanner behind a code. *)
Lemma level_guess level config p d refs s g : Config_gzip level = Ok config ->
  with_sixteen p d (match level_limit level with Some l => l | None => 65535 end) = Ok refs -> bytes_ok (p ++ d) ->
  (sc_pos s < List.length (p ++ d))%nat -> sc_codes (mkTechnique config refs) s = Ok [g] -> level_choice (p ++ d) level (sc_obscured s) (sc_pos s) [g].
Proof.
  intros EC EW HB HP EG. destruct (made config _ _ _ _ EW) as (R & _ & _ & EL & _).
  destruct (guesses (p ++ d) (mkTechnique config refs) R HB s HP) as (gs & E & HC & _). rewrite EG in E. injection E as <-.
  apply (level_choice_spec level config); [exact EC|]. cbn [t_refs t_config] in HC. rewrite EL in HC. exact HC.
Qed.
Lemma level_runs level config refs s c : Config_gzip level = Ok config ->
  sc_obscured (feedback (mkTechnique config refs) s c) = sc_obscured s ++ long_runs (level_limit level) (sc_pos s) [c].
Proof.
  intro EC. change (feedback (mkTechnique config refs) s c) with (fold_left (feedback (mkTechnique config refs)) [c] s).
  rewrite feedback_runs. cbn [sc_obscured t_config]. now rewrite (level_limit_spec _ _ EC).
Qed.

Lemma misses_shown level config p d refs : Config_gzip level = Ok config ->
  with_sixteen p d (match level_limit level with Some l => l | None => 65535 end) = Ok refs ->
  bytes_ok (p ++ d) ->
  forall fuel s codes hints, finishes (p ++ d) (sc_pos s) codes ->
  trace_loop fuel (mkTechnique config refs) s codes = Ok hints ->
  exists lines, miss_lines (p ++ d) level d (sc_obscured s) (sc_pos s) codes hints lines
    /\ forall ls, listed_hints (mkTechnique config refs) d s hints codes = Ok ls -> ls = lines.
Proof.
  intros EC EW HB. destruct (technique_of config _ _ _ _ EW) as (R & _). set (t := mkTechnique config refs) in *.
  induction fuel as [|fuel IH]; intros s codes hints HF ET; cbn [trace_loop] in ET; [discriminate|].
  rewrite (more_data_spec (p ++ d) t s R) in ET. assert (HE := finishes_emitted _ _ _ HF).
  destruct (Nat.ltb_spec (sc_pos s) (List.length (p ++ d))) as [Hp|Hp].
  2: { injection ET as <-. destruct codes as [|c codes]; [|assert (X := emitted_pos c codes); lia]. exists []. split; [constructor|]. intros ls EL. cbn [listed_hints] in EL. now injection EL. }
  destruct (C61_lemma_greedy level config p d _ refs (sc_obscured s) (sc_pos s) EC EW Hp) as (g & EG). fold t in EG.
  assert (ES : mkScanner (sc_obscured s) (sc_pos s) = s) by now destruct s. rewrite ES in EG.
  rewrite EG in ET. cbn [obind] in ET.
  destruct codes as [|c codes]; [cbn [emitted] in HE; lia|].
  assert (HF' : finishes (p ++ d) (sc_pos (feedback t s c)) codes).
  { rewrite feedback_pos. change (c :: codes) with ([c] ++ codes) in HF. apply finishes_app in HF. destruct HF as [_ HF].
    cbn [emitted] in HF. now rewrite Nat.add_0_r in HF. }
  assert (PC : sc_pos (feedback t s c) = (sc_pos s + code_bytes c)%nat) by (rewrite feedback_pos; f_equal; symmetry; apply code_bytes_emitted).
  assert (LC := level_guess level config p d refs s g EC EW HB Hp EG). assert (LR := level_runs level config refs s c EC). fold t in LR.
  cbn [shared_prefix] in ET. destruct (Code_eqb c g) eqn:EQ.
  - apply Code_eqb_spec in EQ. subst g. cbn [shared_prefix fold_left map List.length Nat.eqb app] in ET.
    apply obind_ok in ET. destruct ET as (more & ET & E). injection E as <-. destruct (IH _ _ _ HF' ET) as (lines & ML & LS). rewrite PC, LR in ML.
    exists lines. split; [now constructor|]. intros ls EL. cbn [listed_hints] in EL.
    apply obind_ok in EL. destruct EL as (loc & _ & EL). cbn [obind] in EL. apply obind_ok in EL. destruct EL as (ml & EL & E). injection E as <-.
    cbn [app]. now apply LS.
  - cbn [fold_left map List.length Nat.eqb app] in ET. apply obind_ok in ET. destruct ET as (more & ET & E). injection E as <-.
    assert (NE : g <> c) by (intros ->; rewrite (proj2 (Code_eqb_spec c c) eq_refl) in EQ; discriminate).
    destruct (IH _ _ _ HF' ET) as (lines & ML & LS). rewrite PC, LR in ML.
    assert (HH : hint_of c = actual c) by now destruct c. rewrite HH in *.
    eexists. split; [apply (ml_wrong _ _ _ _ _ _ g); [exact LC|exact NE|exact ML]|]. intros ls EL.
    cbn [listed_hints] in EL. apply obind_ok in EL. destruct EL as (loc & ELo & EL). apply slice_context in ELo. subst loc.
    assert (EL' : (more0 <-? listed_hints t d (feedback t s c) more codes ;;
       Ok ([XHint (sc_pos s) (firstn (sc_pos s + 5 - (sc_pos s - 5)) (skipn (sc_pos s - 5) d)) [g] (actual c)] ++ more0)) = Ok ls).
    { destruct c; cbn [actual] in EL |- *; rewrite EG in EL; cbn [obind] in EL; exact EL. }
    clear EL. apply obind_ok in EL'. destruct EL' as (ml & EL & E). injection E as <-. cbn [app]. f_equal. now apply LS.
Qed.

Lemma after_hints_all t hints : forall s codes, List.length hints = List.length codes -> after_hints t s hints codes = fold_left (feedback t) codes s.
Proof.
  induction hints as [|h hints IH]; intros s [|c codes] HL; try discriminate HL; [reflexivity|]. cbn [after_hints fold_left]. apply IH. now injection HL.
Qed.

Lemma section_shown name level config p d refs codes lines : Config_gzip level = Ok config ->
  bytes_ok p -> bytes_ok d -> encodes p d codes ->
  with_sixteen p d (match insert_only_below_length (cfg_wams config) with Some l => l | None => 65535 end) = Ok refs ->
  listed_try_trace refs name config codes d = Ok lines -> section_lines name level p d codes lines.
Proof.
  intros EC B1 B2 HE EW E. destruct (technique_of config _ _ _ _ EW) as (R & EP & _ & EPre).
  unfold listed_try_trace in E. apply obind_ok in E. destruct E as (hints & EV & E). apply obind_ok in E. destruct E as (bytes & EB & E).
  apply obind_ok in E. destruct E as (misses & EM & E). injection E as <-.
  unfold validate in EV. apply obind_ok in EV. destruct EV as (tr & ET & EV). apply obind_ok in EV. destruct EV as (back & _ & EV).
  destruct (slice_eqb _ _ _); [|discriminate]. injection EV as ->.
  unfold st_verify in EB. apply obind_ok in EB. destruct EB as (bs & EWr & EB).
  assert (bs = bytes). { destruct (fst _); try discriminate. destruct (slice_eqb _ _ _); [|discriminate]. now injection EB. } subst bs.
  assert (HL : List.length hints = List.length codes) by (destruct (trace_lemma config p d _ refs codes B1 B2 EW HE) as (h & E & L & _); rewrite ET in E; injection E as <-; exact L).
  assert (LL := level_limit_spec level config EC). rewrite LL in EW.
  exists config, refs, hints, bytes, misses. split; [exact EC|]. split; [exact EW|]. split.
  - destruct (misses_shown level config p d refs EC EW (proj2 (Forall_app _ _ _) (conj B1 B2)) (Datatypes.S (sc_data_len (mkTechnique config refs))) (scanner (mkTechnique config refs)) codes hints) as (lines & ML & LS).
    { rewrite EP. now apply finishes_encodes. }
    { exact ET. }
    rewrite (LS _ EM). rewrite EP in ML. exact ML.
  - split; [exact EWr|].
    rewrite (after_hints_all _ _ _ _ HL). destruct (C59_lemma config refs codes) as [Q1 Q2]. destruct (fold_left _ codes _) as [ob pos]. cbn [sc_pos sc_obscured] in Q1, Q2.
    rewrite EPre in Q1, Q2. rewrite LL in Q2. subst ob. replace (List.length (p ++ d)) with pos; [reflexivity|]. rewrite Q1, <- emitted_codes_len. apply finishes_emitted. now apply finishes_encodes.
Qed.

Lemma print_sections hist d codes data lines : bytes_ok hist -> Forall code_ok codes -> ring 32768 hist d ->
  lz_decode 32768 hist codes = Some (hist ++ data) -> fst (listed_print codes d) = Ok lines ->
  exists one six, lines = one ++ six
    /\ fast_section (lastn (N.to_nat 32768) hist) data codes one /\ default_section (lastn (N.to_nat 32768) hist) data codes six.
Proof.
  intros HB HC R HE EP. unfold listed_print in EP. rewrite (ring_vec_lastn _ _ R) in EP.
  assert (X := block_run hist d (FixedHuffman codes) R). cbn [block_codes] in X. rewrite HE in X.
  destruct X as (data' & d' & ED & EB & _ & R'). apply app_inv_head in ED. subst data'. cbn [decompressed_block] in EB. rewrite EB in EP. cbn [written fst snd] in EP.
  assert (HD : bytes_ok data) by (assert (X := lz_decode_bytes _ _ _ _ HB HC HE); apply Forall_app in X; apply X).
  assert (HP := lastn_bytes (N.to_nat 32768) hist HB). apply encodes_window in HE.
  set (p := lastn (N.to_nat 32768) hist) in *.
  destruct (with_sixteen_ok p data 4) as (r1 & E1 & _). destruct (with_sixteen_ok p data 6) as (r2 & E2 & _). destruct (with_sixteen_ok p data 65535) as (r3 & E3 & _).
  rewrite E1, E2, E3 in EP. cbn [obind] in EP.
  destruct (Config_gzip 1) as [c1| | |] eqn:G1; try discriminate. destruct Config_gzip_16_default as [c6| | |] eqn:G6; try discriminate. cbn [obind] in EP.
  unfold Config_gzip_16_default in G6.
  assert (W1 : with_sixteen p data (match insert_only_below_length (cfg_wams c1) with Some l => l | None => 65535 end) = Ok r1) by (injection G1 as <-; exact E1).
  assert (W6 : with_sixteen p data (match insert_only_below_length (cfg_wams c6) with Some l => l | None => 65535 end) = Ok r3) by (injection G6 as <-; exact E3).
  apply obind_ok in EP. destruct EP as (one & P1 & EP). apply obind_ok in EP. destruct EP as (six & P6 & EP). injection EP as <-.
  exists one, six. split; [reflexivity|]. split; [apply (section_shown _ 1 c1 p data r1)|apply (section_shown _ 6 c6 p data r3)]; auto.
Qed.

Lemma blocks_listed blocks : forall id hist d lines, bytes_ok hist -> Forall block_wf blocks -> ring 32768 hist d ->
  (exists out, lz_decode 32768 hist (flat_map block_codes blocks) = Some out) ->
  fst (listed_blocks id blocks d) = Ok lines -> listing id hist blocks lines.
Proof.
  induction blocks as [|b blocks IH]; intros id hist d lines HB HW R (out & HE) EL.
  { cbn [listed_blocks] in EL. injection EL as <-. constructor. }
  inversion HW as [|? ? WB HW']; subst. cbn [flat_map] in HE. rewrite lz_decode_app in HE.
  destruct (lz_decode 32768 hist (block_codes b)) as [h1|] eqn:E1; [|discriminate].
  assert (X := block_run hist d b R). rewrite E1 in X. destruct X as (data & d0 & EH & _ & _ & R0). subst h1. clear d0 R0.
  assert (CO : Forall code_ok (block_codes b)).
  { unfold block_wf in WB. destruct b; cbn [block_codes]; auto. apply Forall_map. apply WB. }
  assert (HB' : bytes_ok (hist ++ data)) by (eapply lz_decode_bytes; [exact HB|exact CO|exact E1]).
  cbn [listed_blocks] in EL. apply bind_fst_ok in EL. destruct EL as (l1 & EB & EL). apply bind_fst_ok in EL. destruct EL as (l2 & EM & EL).
  cbn [ret fst] in EL. injection EL as <-.
  assert (RG : ring 32768 (hist ++ data) (snd (listed_block id b d))).
  { unfold listed_block. rewrite snd_bind_ret. destruct b as [dd|cs|v cs]; cbn [block_codes] in *.
    - rewrite lz_literals in E1. injection E1 as E1. apply app_inv_head in E1. subst dd. destruct (ring_extend _ data _ _ R) as (d' & E & R'). rewrite E. exact R'.
    - rewrite snd_bind_ret. destruct (print_iff hist d cs data _ HB CO R E1 eq_refl) as [(d' & -> & R') _]. exact R'.
    - rewrite snd_bind_ret. destruct (print_iff hist d cs data _ HB CO R E1 eq_refl) as [(d' & -> & R') _]. exact R'. }
  specialize (IH (S id) (hist ++ data) _ l2 HB' HW' RG ltac:(eauto) EM).
  unfold listed_block in EB. apply bind_fst_ok in EB. destruct EB as (ls & EB & E). cbn [ret fst] in E. injection E as <-.
  destruct b as [dd|cs|v cs]; cbn [block_codes] in *.
  - rewrite lz_literals in E1. injection E1 as E1. apply app_inv_head in E1. subst dd. destruct (ring_extend _ data _ _ R) as (d' & E & R'). rewrite E in EB.
    injection EB as <-. cbn [app]. constructor. exact IH.
  - apply bind_fst_ok in EB. destruct EB as (ls' & EB & E). cbn [ret fst] in E. injection E as <-.
    destruct (print_sections _ _ _ _ _ HB CO R E1 EB) as (one & six & -> & S1 & S6).
    eapply (li_compressed id hist data); eauto.
  - apply bind_fst_ok in EB. destruct EB as (ls' & EB & E). cbn [ret fst] in E. injection E as <-.
    destruct (print_sections _ _ _ _ _ HB CO R E1 EB) as (one & six & -> & S1 & S6).
    eapply (li_compressed id hist data); eauto.
Qed.

Lemma C77_lemma : forall file e header stream trailer blocks lines, bytes_ok file ->
  file = header ++ stream ++ trailer -> gzip_header header -> stream_bits 0 blocks (bits_of_bytes stream) ->
  (exists data, encodes [] data (flat_map block_codes blocks)) ->
  example_run (mkSource file e) = (lines, Ok tt) -> listing 0 [] blocks lines.
Proof.
  intros file e h used tail blocks lines HB EF GH SB (data & HE) X. apply run_ok in X. revert X. unfold listed_run.
  assert (EH : discard_header (mkSource file e) = (Ok h, mkSource (used ++ tail) e)) by (apply C31_lemma; auto).
  rewrite EH. cbn [rest]. assert (HBB : bytes_ok (used ++ tail)) by (rewrite EF in HB; apply Forall_app in HB; apply HB).
  destruct (proj2 (parse_all_iff (used ++ tail) e blocks tail HBB)) as (it & EP & _); [eauto|].
  destruct (parse_all_wf _ _ _ _ HBB EP) as (WF & _).
  assert (DF := listed_follows (8 * List.length (used ++ tail) + 2) 0 (parse_deflate (mkSource (used ++ tail) e))).
  unfold parse_all in EP. cbn [rest] in EP. rewrite EP in DF.
  destruct (ring_new 32768 ltac:(lia)) as (d & E0 & R0). unfold cb_new. change (cb_with_capacity 32768) with (cb_with_capacity (32 * 1024)) in E0.
  rewrite E0. cbn [obind]. rewrite DF. apply blocks_listed; auto; [constructor|]. unfold encodes in HE. cbn [app] in HE. eauto.
Qed.
