(** Proofs of C83: what the tracing example has printed when it stops. *)
From Verif Require Import Base M_bit M_lib M_circles M_gzip M_parse M_serialise M_all_refs M_technique M_trace M_example L_example Spec Spec_encoder Clients Clients_file
  Clients_tracing Clients_restore Clients_listing L_bits L_ring L_parse L_prefix L_P_circ L_P_parse L_P_gzip L_search L_P_search L_tech L_P_tech L_trace L_strace L_P_trace L_P_e2e
  L_P_tracing L_restore L_P_tracing2 L_P_encoder L_P_exact L_level L_P_listing L_P_prefix.
From Coq Require Import ZArith ZifyBool ZifyNat ZifyN.
Ltac Zify.zify_post_hook ::= Z.div_mod_to_equations.
Local Open Scope N_scope.
Local Open Scope model_scope.

Lemma slice_place (d : list N) pos :
  (pos <= List.length d + 5)%nat /\ slice d (pos - 5) (Nat.min (pos + 5) (List.length d)) = Ok (firstn (pos + 5 - (pos - 5)) (skipn (pos - 5) d))
  \/ (List.length d + 5 < pos)%nat /\ exists m, slice d (pos - 5) (Nat.min (pos + 5) (List.length d)) = Panic m.
Proof.
  destruct (slice d (pos - 5) (Nat.min (pos + 5) (List.length d))) as [l|e|m|] eqn:E.
  - left. assert (X := proj1 (slice_near_iff d pos) (ex_intro _ l E)). split; [lia|]. f_equal. now apply slice_context.
  - exfalso. unfold slice in E. destruct (Nat.ltb _ _); [discriminate|]. destruct (Nat.ltb _ _); discriminate.
  - right. split; [|eauto]. destruct (Nat.le_gt_cases pos (List.length d + 5)) as [H|H]; [|exact H].
    destruct (proj2 (slice_near_iff d pos) ltac:(lia)) as (l & X). rewrite E in X. discriminate.
  - exfalso. unfold slice in E. destruct (Nat.ltb _ _); [discriminate|]. destruct (Nat.ltb _ _); discriminate.
Qed.

Definition cut_hints_at (w : list N) (level : N) (d : list N) (runs : list (nat * N)) (pos : nat) (codes : list Code) (hints : list Trace) (misses : list example_line) : Prop :=
  exists before c after, codes = before ++ c :: after
    /\ (List.length d + 5 < pos + codes_bytes before)%nat
    /\ (forall b1 c1 b2, before = b1 ++ c1 :: b2 -> (pos + codes_bytes b1 <= List.length d + 5)%nat)
    /\ miss_lines w level d runs pos before (firstn (List.length before) hints) misses.

Lemma codes_bytes_cons c cs : codes_bytes (c :: cs) = (code_bytes c + codes_bytes cs)%nat.
Proof. reflexivity. Qed.

Lemma cut_cons w level d runs runs' pos c codes h hints misses more : (pos <= List.length d + 5)%nat ->
  (forall before ms, miss_lines w level d runs' (pos + code_bytes c) before (firstn (List.length before) hints) ms ->
     miss_lines w level d runs pos (c :: before) (h :: firstn (List.length before) hints) (more ++ ms)) ->
  cut_hints_at w level d runs' (pos + code_bytes c) codes hints misses -> cut_hints_at w level d runs pos (c :: codes) (h :: hints) (more ++ misses).
Proof.
  intros HP HM (before & c' & after & -> & H1 & H2 & H3). exists (c :: before), c', after. split; [reflexivity|]. rewrite codes_bytes_cons.
  split; [lia|]. split.
  - intros [|c0 b1] c1 b2 E; injection E as <- E.
    + cbn [codes_bytes map fold_right]. lia.
    + rewrite codes_bytes_cons. specialize (H2 _ _ _ E). lia.
  - cbn [List.length firstn]. now apply HM.
Qed.

Lemma hints_printed level config p d refs : Config_gzip level = Ok config ->
  with_sixteen p d (match level_limit level with Some l => l | None => 65535 end) = Ok refs ->
  bytes_ok (p ++ d) ->
  forall fuel s codes hints printed, finishes (p ++ d) (sc_pos s) codes ->
  trace_loop fuel (mkTechnique config refs) s codes = Ok hints ->
  exists misses o, example_hints (mkTechnique config refs) d s hints codes printed = (o, printed ++ misses)
    /\ ((exists s', o = Ok s') \/ (exists m, o = Panic m) /\ cut_hints_at (p ++ d) level d (sc_obscured s) (sc_pos s) codes hints misses).
Proof.
  intros EC EW HB. destruct (technique_of config _ _ _ _ EW) as (R & _). set (t := mkTechnique config refs) in *.
  induction fuel as [|fuel IH]; intros s codes hints printed HF ET; cbn [trace_loop] in ET; [discriminate|].
  rewrite (more_data_spec (p ++ d) t s R) in ET. assert (HE := finishes_emitted _ _ _ HF).
  destruct (Nat.ltb_spec (sc_pos s) (List.length (p ++ d))) as [Hp|Hp].
  2: { injection ET as <-. cbn [example_hints]. exists [], (Ok s). rewrite app_nil_r. split; [reflexivity|eauto]. }
  destruct (C61_lemma_greedy level config p d _ refs (sc_obscured s) (sc_pos s) EC EW Hp) as (g & EG). fold t in EG.
  assert (ES : mkScanner (sc_obscured s) (sc_pos s) = s) by now destruct s. rewrite ES in EG.
  rewrite EG in ET. cbn [obind] in ET.
  destruct codes as [|c codes]; [cbn [emitted] in HE; lia|].
  assert (HF' : finishes (p ++ d) (sc_pos (feedback t s c)) codes).
  { rewrite feedback_pos. change (c :: codes) with ([c] ++ codes) in HF. apply finishes_app in HF. destruct HF as [_ HF].
    cbn [emitted] in HF. now rewrite Nat.add_0_r in HF. }
  assert (PC : sc_pos (feedback t s c) = (sc_pos s + code_bytes c)%nat) by (rewrite feedback_pos; f_equal; symmetry; apply code_bytes_emitted).
  assert (STOP : forall h more, (List.length d + 5 < sc_pos s)%nat -> cut_hints_at (p ++ d) level d (sc_obscured s) (sc_pos s) (c :: codes) (h :: more) []).
  { intros h more H. exists [], c, codes. split; [reflexivity|]. split; [cbn; lia|]. split; [intros [|? ?] ? ? X; discriminate|]. constructor. }
  assert (LC := level_guess level config p d refs s g EC EW HB Hp EG). assert (LR := level_runs level config refs s c EC). fold t in LR.
  cbn [shared_prefix] in ET. destruct (Code_eqb c g) eqn:EQ.
  - apply Code_eqb_spec in EQ. subst g. cbn [shared_prefix fold_left map List.length Nat.eqb app] in ET.
    apply obind_ok in ET. destruct ET as (more & ET & E). injection E as <-. cbn [example_hints]. rewrite lift_bind.
    destruct (slice_place d (sc_pos s)) as [[HS SL]|[HS [m SL]]]; rewrite SL.
    2: { exists [], (Panic m). rewrite app_nil_r. split; [reflexivity|]. right. split; [eauto|]. now apply STOP. }
    destruct (IH _ _ _ printed HF' ET) as (misses & o & EX & CASE). exists misses, o. split; [exact EX|].
    destruct CASE as [X|[X CUT]]; [now left|right]. split; [exact X|]. rewrite PC, LR in CUT. refine (cut_cons (p ++ d) level d _ _ (sc_pos s) c codes Correct more misses [] HS _ CUT). intros before ms XM. cbn [app]. apply ml_right; [exact LC|exact XM].
  - cbn [fold_left map List.length Nat.eqb app] in ET. apply obind_ok in ET. destruct ET as (more & ET & E). injection E as <-.
    assert (NE : g <> c) by (intros ->; rewrite (proj2 (Code_eqb_spec c c) eq_refl) in EQ; discriminate).
    cbn [example_hints]. rewrite lift_bind.
    destruct (slice_place d (sc_pos s)) as [[HS SL]|[HS [m SL]]]; rewrite SL.
    2: { exists [], (Panic m). rewrite app_nil_r. split; [reflexivity|]. right. split; [eauto|]. now apply STOP. }
    set (line := XHint (sc_pos s) (firstn (sc_pos s + 5 - (sc_pos s - 5)) (skipn (sc_pos s - 5) d)) [g] (actual c)).
    destruct (IH _ _ _ (printed ++ [line]) HF' ET) as (misses & o & EX & CASE). exists (line :: misses), o.
    split.
    { assert (HH : hint_of c = actual c) by now destruct c. rewrite <- app_assoc in EX. cbn [app] in EX. rewrite <- EX. unfold line. rewrite <- HH.
      unfold bind, lift. rewrite EG. destruct c; reflexivity. }
    destruct CASE as [X|[X CUT]]; [now left|right]. split; [exact X|]. rewrite PC, LR in CUT.
    assert (HH : hint_of c = actual c) by now destruct c. rewrite HH.
    refine (cut_cons (p ++ d) level d _ _ (sc_pos s) c codes (actual c) more misses [line] HS _ CUT).
    intros before ms XM. unfold line. cbn [app]. apply (ml_wrong _ _ _ _ _ _ g); [exact LC|exact NE|exact XM].
Qed.

Lemma try_trace_cut name level config p d refs codes hints printed o lines : Config_gzip level = Ok config ->
  bytes_ok p -> bytes_ok d -> Forall code_ok codes -> encodes p d codes ->
  with_sixteen p d (match insert_only_below_length (cfg_wams config) with Some l => l | None => 65535 end) = Ok refs ->
  trace codes (mkTechnique config refs) = Ok hints -> (forall r, In (Actually r) hints -> In (Reference r) codes) ->
  o <> Ok tt -> example_try_trace refs name config codes d printed = (o, printed ++ lines) ->
  (exists m, o = Panic m) /\ cut_section name level p d codes lines.
Proof.
  intros EC B1 B2 HC HE EW ET HI NO EX.
  destruct (technique_of config _ _ _ _ EW) as (R & EP & _ & EPre).
  destruct (C43_lemma hints (hints_ok_of_codes _ _ HC HI)) as (bs & EB & _ & EV).
  assert (RC := restored_codes config p d _ refs codes hints B1 B2 EW HE ET).
  assert (FI := found_iff config p d _ refs codes hints B1 B2 EW HE ET).
  assert (FL := found_level_iff level config p d refs codes hints EC B1 B2 EW ET).
  assert (VAL : (literals_found p d hints codes /\ validate codes (mkTechnique config refs) = Ok hints)
                  \/ (~ literals_found p d hints codes /\ exists m, validate codes (mkTechnique config refs) = Panic m)).
  { unfold validate. rewrite ET. cbn [obind]. rewrite RC. destruct (looked_up d (List.length p) hints codes) as [r|]; cbn [opt_result obind].
    - destruct (slice_eqb Code_eqb codes r) eqn:EQ.
      + apply slice_eqb_true in EQ; [|intros a b; apply Code_eqb_spec]. subst r. left. split; [now apply FI|reflexivity].
      + right. split; [|eauto]. intro F. apply FI in F. injection F as ->. rewrite slice_eqb_refl in EQ; [discriminate|]. intro a. now apply Code_eqb_spec.
    - right. split; [|eauto]. intro F. apply FI in F. discriminate. }
  unfold example_try_trace in EX. cbv zeta in EX. rewrite lift_bind in EX. destruct VAL as [[F V]|[F [m' V]]]; rewrite V in EX.
  2: { injection EX as <- EQ. rewrite <- (app_nil_r printed) in EQ at 1. apply app_inv_head in EQ. subst lines. split; [eauto|]. constructor. intro X. exact (F (proj1 FL X)). }
  rewrite lift_bind, EV, println_bind in EX.
  assert (LL := level_limit_spec level config EC). assert (EW' := EW). rewrite LL in EW'.
  destruct (hints_printed level config p d refs EC EW' (proj2 (Forall_app _ _ _) (conj B1 B2)) (Datatypes.S (sc_data_len (mkTechnique config refs))) (scanner (mkTechnique config refs)) codes hints (printed ++ [XSize name (List.length bs)])) as (misses & o' & EH & CASE).
  { rewrite EP. now apply finishes_encodes. }
  { exact ET. }
  unfold bind in EX. rewrite EH in EX. destruct CASE as [[s' ->]|[[m' ->] CUT]].
  { exfalso. cbn in EX. injection EX as <- _. now apply NO. }
  injection EX as <- EQ. rewrite <- app_assoc in EQ. apply app_inv_head in EQ. subst lines. split; [eauto|].
  destruct CUT as (before & c & after & E1 & E2 & E3 & E4). rewrite EP in *. 
  destruct (misses_shown level config p d refs EC EW' (proj2 (Forall_app _ _ _) (conj B1 B2)) (Datatypes.S (sc_data_len (mkTechnique config refs))) (scanner (mkTechnique config refs)) codes hints) as (all & ML & _).
  { rewrite EP. now apply finishes_encodes. }
  { exact ET. }
  rewrite EP in ML. eapply (cs_place name level p d codes hints bs before c after misses all); eauto. exact (proj2 FL F).
Qed.

Lemma try_trace_printed name level config p d refs codes : Config_gzip level = Ok config ->
  bytes_ok p -> bytes_ok d -> Forall code_ok codes -> encodes p d codes ->
  with_sixteen p d (match insert_only_below_length (cfg_wams config) with Some l => l | None => 65535 end) = Ok refs ->
  forall printed, exists lines o, example_try_trace refs name config codes d printed = (o, printed ++ lines)
    /\ (o = Ok tt /\ section_lines name level p d codes lines \/ (exists m, o = Panic m) /\ cut_section name level p d codes lines).
Proof.
  intros EC B1 B2 HC HE EW printed.
  destruct (trace_lemma config p d _ refs codes B1 B2 EW HE) as (hints & ET & L & HI & _ & _).
  assert (SH := try_trace_shows refs name config codes d printed). destruct SH as (lines & ES & EA).
  destruct (example_try_trace refs name config codes d printed) as [o pr] eqn:EX. cbn [fst snd] in *. subst pr.
  destruct (listed_try_trace refs name config codes d) as [l|e|m|] eqn:EL; cbn [agrees] in EA.
  { destruct EA as [-> [[] ->]]. exists l, (Ok tt). split; [reflexivity|]. left. split; [reflexivity|]. now apply (section_shown name level config p d refs). }
  all: assert (NO : o <> Ok tt) by (subst; discriminate || (intros X; rewrite X in EA; discriminate)).
  all: exists lines, o; split; [reflexivity|]; right; clear EL EA; revert NO EX; eapply (try_trace_cut name level config p d refs codes); eassumption.
Qed.

Lemma print_printed hist d codes data printed : bytes_ok hist -> Forall code_ok codes -> ring 32768 hist d ->
  lz_decode 32768 hist codes = Some (hist ++ data) ->
  exists d' lines o, example_print codes (d, printed) = (o, (d', printed ++ lines)) /\ ring 32768 (hist ++ data) d'
    /\ let p := lastn (N.to_nat 32768) hist in
       (o = Ok tt /\ (exists one six, lines = one ++ six /\ fast_section p data codes one /\ default_section p data codes six)
        \/ (exists m, o = Panic m)
           /\ (cut_section "gzip --fast" 1 p data codes lines
               \/ exists one six, lines = one ++ six /\ fast_section p data codes one /\ cut_section "gzip [--default]" 6 p data codes six)).
Proof.
  intros HB HC R HE. unfold example_print. cbn [fst snd]. rewrite (ring_vec_lastn _ _ R).
  assert (X := block_run hist d (FixedHuffman codes) R). cbn [block_codes] in X. rewrite HE in X.
  destruct X as (data' & d' & ED & EB & _ & R'). apply app_inv_head in ED. subst data'. cbn [decompressed_block] in EB. rewrite EB. cbn [written fst snd].
  assert (HD : bytes_ok data) by (assert (X := lz_decode_bytes _ _ _ _ HB HC HE); apply Forall_app in X; apply X).
  assert (HP := lastn_bytes (N.to_nat 32768) hist HB). apply encodes_window in HE.
  set (p := lastn (N.to_nat 32768) hist) in *.
  destruct (with_sixteen_ok p data 4) as (r1 & E1 & _). destruct (with_sixteen_ok p data 6) as (r2 & E2 & _). destruct (with_sixteen_ok p data 65535) as (r3 & E3 & _).
  rewrite !lift_bind, E1, lift_bind, E2, lift_bind, E3, lift_bind.
  destruct (Config_gzip 1) as [c1| | |] eqn:G1; try discriminate.
  destruct (Config_gzip 6) as [c6| | |] eqn:G6; try discriminate.
  assert (W1 : with_sixteen p data (match insert_only_below_length (cfg_wams c1) with Some l => l | None => 65535 end) = Ok r1) by (injection G1 as <-; exact E1).
  assert (W6 : with_sixteen p data (match insert_only_below_length (cfg_wams c6) with Some l => l | None => 65535 end) = Ok r3) by (injection G6 as <-; exact E3).
  exists d'. destruct (try_trace_printed "gzip --fast" 1 c1 p data r1 codes G1 HP HD HC HE W1 printed) as (one & o1 & X1 & C1).
  unfold bind at 1. unfold on_printed at 1, zoom. cbn [fst snd]. rewrite X1. cbn [fst snd].
  destruct C1 as [[-> S1]|[[m ->] S1]].
  - rewrite lift_bind. unfold Config_gzip_16_default. rewrite G6. unfold on_printed, zoom. cbn [fst snd].
    destruct (try_trace_printed "gzip [--default]" 6 c6 p data r3 codes G6 HP HD HC HE W6 (printed ++ one)) as (six & o6 & X6 & C6).
    rewrite X6. cbn [fst snd]. exists (one ++ six), o6. rewrite app_assoc. split; [reflexivity|]. split; [exact R'|].
    destruct C6 as [[-> S6]|[P6 S6]]; [left; eauto 8|right; eauto 8].
  - exists one, (Panic m). split; [reflexivity|]. split; [exact R'|]. right. eauto.
Qed.

Lemma block_printed id hist d b printed : bytes_ok hist -> block_wf b -> ring 32768 hist d ->
  exists d1 lines o, example_block id b (d, printed) = (o, (d1, printed ++ lines))
  /\ ((exists data, lz_decode 32768 hist (block_codes b) = Some (hist ++ data) /\ bytes_ok (hist ++ data) /\ ring 32768 (hist ++ data) d1
       /\ (o = Ok tt /\ (forall blocks more, listing (S id) (hist ++ data) blocks more -> listing id hist (b :: blocks) (lines ++ more))
             /\ (forall blocks more, cut_listing (S id) (hist ++ data) blocks more -> cut_listing id hist (b :: blocks) (lines ++ more))
           \/ (exists m, o = Panic m) /\ forall blocks, cut_listing id hist (b :: blocks) lines))
      \/ (exists er, o = Err er) /\ forall blocks, bad_listing id hist (b :: blocks) lines).
Proof.
  intros HB WB R.
  assert (CO : Forall code_ok (block_codes b)).
  { unfold block_wf in WB. destruct b; cbn [block_codes]; auto. apply Forall_map. apply WB. }
  assert (X := block_run hist d b R). destruct (lz_decode 32768 hist (block_codes b)) as [h1|] eqn:E1.
  - destruct X as (data & d0 & EH & _ & _ & R0). subst h1. clear d0 R0.
    assert (HB' : bytes_ok (hist ++ data)) by (eapply lz_decode_bytes; [exact HB|exact CO|exact E1]).
    assert (COMP : forall codes kind, block_codes b = codes ->
      ((exists cs, b = FixedHuffman cs /\ kind = XFixed) \/ (exists trees cs, b = DynamicHuffman trees cs /\ kind = XDynamic trees)) ->
      exists d1 lines o, (on_printed (example_println (XBlock id)) ;;; on_printed (example_println kind) ;;; example_print codes) (d, printed) = (o, (d1, printed ++ lines)) /\ ring 32768 (hist ++ data) d1
     /\ (o = Ok tt /\ (forall blocks more, listing (S id) (hist ++ data) blocks more -> listing id hist (b :: blocks) (lines ++ more))
           /\ (forall blocks more, cut_listing (S id) (hist ++ data) blocks more -> cut_listing id hist (b :: blocks) (lines ++ more))
         \/ (exists m, o = Panic m) /\ forall blocks, cut_listing id hist (b :: blocks) lines)).
    { intros codes kind EC HK. rewrite EC in E1, CO.
      destruct (print_printed hist d codes data ((printed ++ [XBlock id]) ++ [kind]) HB CO R E1) as (d1 & lines & o & EP & R1 & CASE).
      exists d1, (XBlock id :: kind :: lines), o. split.
      { unfold bind, on_printed at 1 2, zoom. cbn [fst snd example_println]. rewrite EP. rewrite <- !app_assoc. reflexivity. }
      split; [exact R1|]. cbv zeta in CASE. destruct CASE as [[-> (one & six & -> & S1 & S6)]|[P CUT]].
      - left. split; [reflexivity|]. rewrite <- EC in S1, S6, E1. split; intros blocks more HM; [eapply (li_compressed id hist data); eauto|eapply (cl_compressed id hist data); eauto].
      - right. split; [exact P|]. intro blocks. rewrite <- EC in CUT, E1. destruct CUT as [CUT|(one & six & -> & S1 & CUT)]; [eapply (cl_fast id hist data); eauto|eapply (cl_default id hist data); eauto]. }
    assert (STEP : exists d1 lines o, example_block id b (d, printed) = (o, (d1, printed ++ lines)) /\ ring 32768 (hist ++ data) d1
     /\ (o = Ok tt /\ (forall blocks more, listing (S id) (hist ++ data) blocks more -> listing id hist (b :: blocks) (lines ++ more))
           /\ (forall blocks more, cut_listing (S id) (hist ++ data) blocks more -> cut_listing id hist (b :: blocks) (lines ++ more))
         \/ (exists m, o = Panic m) /\ forall blocks, cut_listing id hist (b :: blocks) lines)).
    { unfold example_block. destruct b as [dd|cs|v cs]; [|apply COMP; eauto..]. clear COMP. cbn [block_codes] in *.
      rewrite lz_literals in E1. injection E1 as E1. apply app_inv_head in E1. subst dd. destruct (ring_extend _ data _ _ R) as (d1 & E & R1).
      exists d1, [XBlock id; XStored (List.length data)], (Ok tt). unfold bind, on_printed, zoom. cbn [fst snd example_println]. rewrite E. rewrite <- app_assoc. split; [reflexivity|].
      split; [exact R1|]. left. split; [reflexivity|]. split; intros blocks more HM; cbn [app]; now constructor. }
    destruct STEP as (d1 & lines & o & EB & R1 & C). exists d1, lines, o. split; [exact EB|]. left. exists data. auto.
  - destruct X as (er & [d0 s0] & EB).
    assert (COMP : forall codes kind, block_codes b = codes -> decompressed_codes codes (d, new_sink) = (Err er, (d0, s0)) ->
      ((exists cs, b = FixedHuffman cs /\ kind = XFixed) \/ (exists trees cs, b = DynamicHuffman trees cs /\ kind = XDynamic trees)) ->
      exists d1 lines o, (on_printed (example_println (XBlock id)) ;;; on_printed (example_println kind) ;;; example_print codes) (d, printed) = (o, (d1, printed ++ lines))
       /\ (exists er, o = Err er) /\ forall blocks, bad_listing id hist (b :: blocks) lines).
    { intros codes kind EC ED HK. exists d0, [XBlock id; kind], (Err er). split.
      { unfold bind, on_printed at 1 2, zoom. cbn [fst snd example_println]. unfold example_print. cbn [fst snd]. rewrite (ring_vec_lastn _ _ R), ED. rewrite <- app_assoc. reflexivity. }
      split; [eauto|]. intro blocks. exists [], b, blocks, kind, [], hist. cbn [List.length app flat_map lz_decode]. rewrite Nat.add_0_r.
      split; [reflexivity|]. split; [constructor|]. auto. }
    assert (STEP : exists d1 lines o, example_block id b (d, printed) = (o, (d1, printed ++ lines))
       /\ (exists er, o = Err er) /\ forall blocks, bad_listing id hist (b :: blocks) lines).
    { unfold example_block. destruct b as [dd|cs|v cs]; [|apply COMP; eauto..]. cbn [block_codes] in E1. rewrite lz_literals in E1. discriminate. }
    destruct STEP as (d1 & lines & o & E & C). exists d1, lines, o. split; [exact E|]. now right.
Qed.

Lemma bad_listing_cons id hist data b blocks lines more : lz_decode 32768 hist (block_codes b) = Some (hist ++ data) ->
  (forall blocks more, listing (S id) (hist ++ data) blocks more -> listing id hist (b :: blocks) (lines ++ more)) ->
  bad_listing (S id) (hist ++ data) blocks more -> bad_listing id hist (b :: blocks) (lines ++ more).
Proof.
  intros E K (before & b' & after & kind & l1 & h & -> & HL & HE & HN & HK & ->).
  exists (b :: before), b', after, kind, (lines ++ l1), h. split; [reflexivity|]. split; [now apply K|]. split.
  { cbn [flat_map]. rewrite lz_decode_app, E. exact HE. }
  split; [exact HN|]. split; [exact HK|]. cbn [List.length]. now rewrite Nat.add_succ_r, <- app_assoc.
Qed.

Lemma call_next_cons b it it' n : bi_next it = (Ok (Some b), it') -> fst (call_next (S n) it) = Ok (Some b) :: fst (call_next n it').
Proof. intro E. cbn [call_next]. rewrite E. destruct (call_next n it'). reflexivity. Qed.

Lemma blocks_printed blocks : forall id hist d printed fuel it last, bytes_ok hist -> Forall block_wf blocks -> ring 32768 hist d ->
  returns (fst (bi_drain fuel it)) ->
  fst (call_next (S (List.length blocks)) it) = map (fun b => Ok (Some b)) blocks ++ [last] -> (last = Ok None \/ exists er, last = Err er) ->
  exists lines o d', example_loop fuel id it (d, printed) = (o, (d', printed ++ lines))
    /\ (listing id hist blocks lines /\ (last = Ok None /\ o = Ok tt \/ exists er, last = Err er /\ o = Err er)
        \/ (exists m, o = Panic m) /\ cut_listing id hist blocks lines
        \/ (exists er, o = Err er) /\ bad_listing id hist blocks lines).
Proof.
  induction blocks as [|b blocks IH]; intros id hist d printed fuel it last HB HW R HD HC HL.
  { cbn [List.length map app call_next] in HC. destruct (bi_next it) as [o' it1] eqn:EN. cbn [fst] in HC. injection HC as ->.
    destruct fuel as [|fuel]; cbn [bi_drain example_loop] in *; [destruct HD|]. rewrite EN.
    exists [], (match last with Ok _ => Ok tt | Err er => Err er | Panic m => Panic m | Diverge => Diverge end), d. rewrite app_nil_r.
    destruct HL as [->|(er & ->)]; (split; [reflexivity|]; left; split; [constructor|eauto]). }
  cbn [List.length map app] in HC. destruct (bi_next it) as [o' it1] eqn:EN.
  assert (o' = Ok (Some b)). { cbn [call_next] in HC. rewrite EN in HC. destruct (bi_next it1). destruct (call_next (List.length blocks) _). cbn [fst] in HC. now injection HC. }
  subst o'. rewrite (call_next_cons _ _ _ _ EN) in HC. injection HC as HC.
  destruct fuel as [|fuel]; cbn [bi_drain example_loop] in *; [destruct HD|]. rewrite EN.
  assert (HD' : returns (fst (bi_drain fuel it1))).
  { unfold bind at 1 in HD. rewrite EN in HD. unfold bind in HD. destruct (bi_drain fuel it1) as [[bs| | |] it2]; cbn [fst returns] in *; tauto. }
  inversion HW as [|? ? WB HW']; subst. destruct (block_printed id hist d b printed HB WB R) as (d1 & lines & o & EB & CASE). unfold bind. rewrite EB.
  destruct CASE as [(data & E1 & HB' & R1 & CASE)|[[er ->] BAD]].
  2: { exists lines, (Err er), d1. split; [reflexivity|]. right. right. eauto. }
  destruct CASE as [(-> & K1 & K2)|[[m ->] CUT]].
  2: { exists lines, (Panic m), d1. split; [reflexivity|]. right. left. eauto. }
  destruct (IH (S id) (hist ++ data) d1 (printed ++ lines) fuel it1 last HB' HW' R1 HD' HC HL) as (more & o & d2 & EL & C).
  exists (lines ++ more), o, d2. rewrite EL, app_assoc. split; [reflexivity|].
  destruct C as [[C X]|[[P C]|[P C]]]; [left; auto|right; left; auto|right; right; split; [exact P|]]. eapply bad_listing_cons; eauto.
Qed.

Lemma C83_lemma_any : forall file e header body blocks last, bytes_ok file ->
  discard_header (mkSource file e) = (Ok header, mkSource body e) ->
  fst (call_next (S (List.length blocks)) (parse_deflate (mkSource body e))) = map (fun b => Ok (Some b)) blocks ++ [last] ->
  last = Ok None \/ (exists er, last = Err er) ->
  let '(lines, result) := example_run (mkSource file e) in
  listing 0 [] blocks lines /\ (last = Ok None /\ result = Ok tt \/ exists er, last = Err er /\ result = Err er)
  \/ (exists m, result = Panic m) /\ cut_listing 0 [] blocks lines
  \/ (exists er, result = Err er) /\ bad_listing 0 [] blocks lines.
Proof.
  intros file e h body blocks last HB EH HC HL. unfold example_run. rewrite EH. cbn [rest].
  destruct (C30_lemma _ _ _ _ EH) as (body' & E' & EF & _). injection E' as <-.
  assert (HBB : bytes_ok body) by (rewrite EF in HB; apply Forall_app in HB; apply HB).
  destruct (ring_new 32768 ltac:(lia)) as (d & E0 & R0). unfold cb_new. change (cb_with_capacity 32768) with (cb_with_capacity (32 * 1024)) in E0.
  rewrite E0. assert (T := parse_all_total body e HBB). unfold parse_all in T. cbn [rest] in T.
  assert (WF : Forall block_wf blocks).
  { apply Forall_forall. intros b HI. destruct (call_next_live e (S (List.length blocks)) _ _ (live_new body e HBB)) as (_ & _ & _ & H).
    destruct (H b) as (_ & _ & _ & X); [|exact X]. rewrite HC. apply in_or_app. left. now apply (in_map (fun b => Ok (Some b))). }
  destruct (blocks_printed blocks 0 [] d [] _ _ last ltac:(constructor) WF R0 T HC HL) as (lines & o & d' & EL & C).
  rewrite EL. cbn [app]. exact C.
Qed.

Lemma next_blocks fuel : forall it, returns (fst (bi_drain fuel it)) ->
  exists blocks last, fst (call_next (S (List.length blocks)) it) = map (fun b => Ok (Some b)) blocks ++ [last] /\ (last = Ok None \/ exists er, last = Err er)
    /\ (forall bs, fst (bi_drain fuel it) = Ok bs -> bs = blocks /\ last = Ok None).
Proof.
  induction fuel as [|fuel IH]; intros it T; cbn [bi_drain] in *; [destruct T|]. unfold bind at 1 in T. unfold bind at 1.
  destruct (bi_next it) as [[[b|]|er|m|] it1] eqn:EN; cbn [fst returns] in *; try (now destruct T).
  - unfold bind in T. assert (T' : returns (fst (bi_drain fuel it1))) by (destruct (bi_drain fuel it1) as [[bs| | |] it2]; cbn [fst returns] in *; tauto).
    destruct (IH it1 T') as (blocks & last & H1 & H2 & H3). exists (b :: blocks), last. cbn [List.length map app]. rewrite (call_next_cons _ _ _ _ EN), H1. split; [reflexivity|]. split; [exact H2|].
    intros bs. unfold bind. destruct (bi_drain fuel it1) as [[bs'| | |] it2]; cbn [fst] in *; try discriminate. intros [= <-]. destruct (H3 bs' eq_refl) as [-> ->]. auto.
  - exists [], (Ok None). cbn [List.length map app call_next]. rewrite EN. split; [reflexivity|]. split; [auto|]. intros bs [= <-]. auto.
  - exists [], (Err er). cbn [List.length map app call_next]. rewrite EN. split; [reflexivity|]. split; [eauto|]. intros bs [=].
Qed.

Lemma C83_lemma_total : forall file e, bytes_ok file -> snd (example_run (mkSource file e)) <> Diverge.
Proof.
  intros file e HB X. assert (T := C31_lemma_total file e). destruct (discard_header (mkSource file e)) as [o s] eqn:EH.
  destruct o as [h|er|m|]; cbn [fst returns] in T; try (now destruct T).
  - destruct (C30_lemma _ _ _ _ EH) as (body & -> & EF & _).
    assert (HBB : bytes_ok body) by (rewrite EF in HB; apply Forall_app in HB; apply HB).
    destruct (next_blocks _ _ (parse_all_total body e HBB)) as (blocks & last & H1 & H2 & _).
    assert (A := C83_lemma_any file e h body blocks last HB EH H1 H2). destruct (example_run (mkSource file e)) as [lines o]. cbn [snd] in X. subst o.
    destruct A as [[_ [[_ A]|(er & _ & A)]]|[[[m A] _]|[[er A] _]]]; discriminate.
  - unfold example_run in X. rewrite EH in X. discriminate.
Qed.

Lemma no_bad blocks lines data : lz_decode 32768 [] (flat_map block_codes blocks) = Some data -> ~ bad_listing 0 [] blocks lines.
Proof.
  intros HE (before & b & after & kind & l1 & h & -> & _ & H1 & H2 & _). rewrite flat_map_app, lz_decode_app, H1 in HE. cbn [flat_map] in HE.
  rewrite lz_decode_app, H2 in HE. discriminate.
Qed.

Lemma C83_lemma : forall file e header stream trailer blocks, bytes_ok file ->
  file = header ++ stream ++ trailer -> gzip_header header -> stream_bits 0 blocks (bits_of_bytes stream) ->
  (exists data, encodes [] data (flat_map block_codes blocks)) ->
  (snd (example_run (mkSource file e)) = Ok tt /\ listing 0 [] blocks (fst (example_run (mkSource file e))))
  \/ ((exists m, snd (example_run (mkSource file e)) = Panic m) /\ cut_listing 0 [] blocks (fst (example_run (mkSource file e)))).
Proof.
  intros file e h used tail blocks HB EF GH SB (data & HE).
  assert (EH : discard_header (mkSource file e) = (Ok h, mkSource (used ++ tail) e)) by (apply C31_lemma; auto).
  assert (HBB : bytes_ok (used ++ tail)) by (rewrite EF in HB; apply Forall_app in HB; apply HB).
  destruct (proj2 (parse_all_iff (used ++ tail) e blocks tail HBB)) as (it & EP & _); [eauto|].
  destruct (next_blocks _ _ (parse_all_total _ e HBB)) as (bs & last & H1 & H2 & H3). unfold parse_all in EP. cbn [rest] in EP, H3. rewrite EP in H3.
  destruct (H3 _ eq_refl) as [<- ->].
  assert (A := C83_lemma_any file e h (used ++ tail) blocks (Ok None) HB EH H1 H2).
  destruct (example_run (mkSource file e)) as [lines o]. cbn [fst snd].
  destruct A as [[A [[_ ->]|(er & X & _)]]|[A|[_ A]]]; [left; auto|discriminate|right; exact A|].
  exfalso. revert A. apply (no_bad _ _ data). exact HE.
Qed.

(** ** Prefixes *)
Definition grows {A} (m : M (circ * list example_line) A) : Prop := forall st, exists l, snd (snd (m st)) = snd st ++ l.
Lemma grows_lift {A} (o : outcome A) : grows (lift o).
Proof. intro st. exists []. cbn. now rewrite app_nil_r. Qed.
Lemma grows_bind {A B} (m : M (circ * list example_line) A) (k : A -> M (circ * list example_line) B) : grows m -> (forall a, grows (k a)) -> grows (bind m k).
Proof.
  intros H1 H2 st. unfold bind. destruct (H1 st) as [l L]. destruct (m st) as [[a| | |] st'] eqn:E; cbn [snd] in *; eauto.
  destruct (H2 a st') as [l' L']. exists (l ++ l'). now rewrite L', L, <- app_assoc.
Qed.
Lemma grows_loop fuel id it : grows (example_loop fuel id it).
Proof. intros [d printed]. destruct (loop_shows fuel id it d printed) as (lines & E & _). exists lines. now rewrite E. Qed.

Lemma example_prefix e e' more : forall f1 f2 id a b st, (f1 <= f2)%nat -> iter_rel e e' more a b ->
  fst (example_loop f1 id a st) = Diverge
  \/ (exists l, snd (snd (example_loop f2 id b st)) = snd (snd (example_loop f1 id a st)) ++ l)
     /\ (fst (example_loop f1 id a st) = Err (EIo e) \/ example_loop f2 id b st = example_loop f1 id a st).
Proof.
  induction f1 as [|f1 IH]; intros f2 id a b st F H; [now left|]. destruct f2 as [|f2]; [lia|]. cbn [example_loop].
  destruct (pre_next e e' more a b H) as [E|[E|[E HP]]].
  - right. split; [|left; destruct (bi_next a) as [o a1]; cbn [fst] in E; now subst o]. destruct (grows_loop (S f2) id b st) as [l L]. exists l. cbn [example_loop] in L. rewrite L.
    destruct (bi_next a) as [o a1]. cbn [fst] in E. subst o. reflexivity.
  - left. destruct (bi_next a) as [o a1]. cbn [fst] in E. subst o. reflexivity.
  - destruct (bi_next a) as [o a1], (bi_next b) as [o' b1]. cbn [fst snd] in *. subst o'.
    destruct o as [[blk|]| | |]; try (right; split; [exists []; cbn; now rewrite app_nil_r|now right]).
    unfold bind. destruct (example_block id blk st) as [[[]| | |] st']; try (right; split; [exists []; cbn; now rewrite app_nil_r|now right]). apply IH; [lia|exact HP].
Qed.

Lemma C83_lemma_prefix : forall file more e e', bytes_ok file ->
  (exists l, fst (example_run (mkSource (file ++ more) e')) = fst (example_run (mkSource file e)) ++ l)
  /\ (snd (example_run (mkSource file e)) = Err (EIo e) \/ example_run (mkSource (file ++ more) e') = example_run (mkSource file e)).
Proof.
  intros file more e e' HB. assert (D := C83_lemma_total file e HB).
  assert (T := C31_lemma_total file e). unfold example_run in *. destruct (pre_header e e' more _ _ (src_new e e' file more)) as [X|[X|[X HP]]].
  - destruct (discard_header (mkSource file e)) as [o s]. cbn [fst] in X. subst o. cbn [fst snd]. split; [eexists; reflexivity|now left].
  - rewrite X in T. destruct T.
  - destruct (discard_header (mkSource file e)) as [o s], (discard_header (mkSource (file ++ more) e')) as [o' s']. cbn [fst snd] in *. subst o'.
    destruct o; try (split; [exists []; reflexivity|now right]). destruct cb_new as [d0| | |]; try (split; [exists []; reflexivity|now right]).
    destruct (example_prefix e e' more (8 * List.length (rest s) + 2) (8 * List.length (rest s') + 2) 0 _ _ (d0, []) ltac:(destruct HP as [HP _]; rewrite HP, app_length; lia) (iter_new e e' more _ _ HP)) as [Y|Y].
    + destruct (example_loop _ 0 (parse_deflate s) (d0, [])) as [o1 [d1 p1]]. cbn [fst snd] in *. now destruct D.
    + destruct (example_loop _ 0 (parse_deflate s) (d0, [])) as [o1 [d1 p1]], (example_loop _ 0 (parse_deflate s') (d0, [])) as [o2 [d2 p2]]. cbn [fst snd] in *.
      destruct Y as [Y1 [Y2|Y2]]; (split; [exact Y1|]); [now left|right]. injection Y2 as -> _ ->. reflexivity.
Qed.
