(** Proofs of C65 and C66. *)
From Verif Require Import Base M_bit M_lib M_circles M_gzip M_parse M_serialise M_all_refs M_technique M_trace M_example L_example Spec Clients Clients_tracing
  L_bits L_ring L_parse L_P_circ L_P_parse L_P_gzip L_search L_P_search L_tech L_P_tech L_trace L_strace L_P_trace L_P_e2e.
From Coq Require Import ZArith ZifyBool ZifyNat ZifyN.
Ltac Zify.zify_post_hook ::= Z.div_mod_to_equations.
Local Open Scope N_scope.
Local Open Scope model_scope.

(** ** What try_gzip accepts *)
Lemma decodes_cons w pos c cs k : (pos <= List.length w)%nat -> decodes w pos (c :: cs) k ->
  (pos < List.length w)%nat /\ (forall b, c = Literal b -> nth_error w pos = Some b)
  /\ (pos + N.to_nat (emitted_bytes c) <= List.length w)%nat
  /\ decodes w (pos + N.to_nat (emitted_bytes c)) cs (emitted cs).
Proof.
  intros Hp HD. assert (EK := decodes_emitted _ _ _ _ Hp HD). destruct HD as [HK HD].
  assert (PC := emitted_pos c cs). set (v := firstn (pos + k) w) in *.
  assert (LV : List.length v = (pos + k)%nat) by (unfold v; rewrite firstn_length; lia).
  assert (FV : forall n, (n <= pos + k)%nat -> firstn n v = firstn n w).
  { intros n Hn. unfold v. rewrite firstn_firstn. f_equal. lia. }
  assert (F : finishes v pos ([c] ++ cs)).
  { split; [lia|]. rewrite FV by lia. exact HD. }
  assert (EM : emitted [c] = N.to_nat (emitted_bytes c)) by (cbn [emitted]; lia).
  split; [lia|]. split.
  - intros b ->. apply finishes_lit in F. unfold v in F. revert F. clear -EK PC. intro F.
    rewrite <- (firstn_skipn (pos + k) w), nth_error_app1; [exact F|]. apply nth_error_Some. now rewrite F.
  - cbn [emitted] in EK. apply finishes_app in F. destruct F as [_ F]. rewrite EM in F.
    assert (FE := finishes_emitted _ _ _ F). destruct F as [_ F]. split; [lia|]. rewrite FV in F by lia. split; [lia|]. rewrite F. unfold v. f_equal. f_equal. lia.
Qed.

Section Accept.
  Variables (w : list N) (t : Technique).
  Hypothesis R : refs_of w (t_refs t).
  Hypothesis HB : bytes_ok w.
  Hypothesis P0 : ar_preroll (t_refs t) = [].

  Lemma byte_at_nth pos b : byte_at t pos = Ok b -> nth_error w pos = Some b.
  Proof.
    destruct R as [EW _]. rewrite P0 in EW. cbn [app] in EW. unfold byte_at, get_idx. rewrite EW. destruct (nth_error w pos); [now intros [= <-]|discriminate].
  Qed.

  Lemma fits_cons pos c cs : (pos < List.length w)%nat -> (forall b, c = Literal b -> nth_error w pos = Some b) ->
    fits w (pos + N.to_nat (emitted_bytes c)) cs -> fits w pos (c :: cs).
  Proof.
    intros Hp HL HF. destruct c as [b|r]; cbn [fits]; [split; [now apply HL|exact HF]|]. split; [exact Hp|]. exact HF.
  Qed.

  Lemma restored_guesses gs : forall s tr l s' tr', decodes w (sc_pos s) gs (emitted gs) -> (sc_pos s <= List.length w)%nat ->
    restore_guesses t gs s tr = Ok (l, s', tr') ->
    forall more, fits w (sc_pos s') more -> fits w (sc_pos s) (l ++ more).
  Proof.
    induction gs as [|g gs IH]; intros s tr l s' tr' HD Hp E more HF; cbn [restore_guesses] in E.
    - injection E as <- <- <-. exact HF.
    - destruct tr as [|h tr]; [discriminate|]. destruct (decodes_cons _ _ _ _ _ Hp HD) as (H1 & H2 & H3 & H4).
      apply obind_ok in E. destruct E as (orig & EO & E). destruct h.
      + injection EO as <-. apply obind_ok in E. destruct E as ([[l0 s0] tr0] & EG & E). injection E as <- <- <-. cbn [app].
        apply fits_cons; [exact H1|exact H2|]. rewrite <- (feedback_pos t). eapply (IH _ _ _ _ _ _ _ EG more HF). Unshelve.
        * now rewrite feedback_pos.
        * now rewrite feedback_pos.
      + apply obind_ok in EO. destruct EO as (b & EB & EO). injection EO as <-. injection E as <- <- <-. cbn [app].
        apply fits_cons; [exact H1| |now rewrite <- (feedback_pos t)]. intros b' [= <-]. now apply byte_at_nth.
      + injection EO as <-. injection E as <- <- <-. cbn [app]. apply fits_cons; [exact H1|discriminate|now rewrite <- (feedback_pos t)].
  Qed.

  Lemma restored fuel : forall s tr codes, restore_loop fuel t s tr = Ok codes -> fits w (sc_pos s) codes.
  Proof.
    induction fuel as [|fuel IH]; intros s tr codes E; cbn [restore_loop] in E; [discriminate|].
    rewrite (more_data_spec w) in E by assumption. destruct (Nat.ltb_spec (sc_pos s) (List.length w)) as [Hp|Hp].
    - destruct (guess_ok w t (cfg_lookahead (t_config t)) (sc_obscured s) (sc_pos s) R HB Hp) as (gs & k & EG & NE & K1 & HD & _).
      unfold sc_codes in E. rewrite EG in E. cbn [obind] in E. destruct gs as [|g gs]; [now destruct NE|].
      apply obind_ok in E. destruct E as ([[l s'] tr'] & EL & E). apply obind_ok in E. destruct E as (more & EM & E). injection E as <-.
      assert (EK := decodes_emitted _ _ _ _ (Nat.lt_le_incl _ _ Hp) HD). subst k.
      apply (restored_guesses _ _ _ _ _ _ HD ltac:(lia) EL). now apply (IH _ _ _ EM).
    - injection E as <-. exact Hp.
  Qed.
End Accept.

Lemma C65_lemma : forall level data codes hints, bytes_ok data ->
  try_gzip level [] data codes = Ok hints -> fits data 0 codes.
Proof.
  intros level data codes hints HB E. unfold try_gzip, tracer_try in E. apply obind_ok in E. destruct E as (config & _ & E).
  apply obind_ok in E. destruct E as (refs & EW & E). apply obind_ok in E. destruct E as (tr & EV & _).
  unfold validate in EV. apply obind_ok in EV. destruct EV as (tr' & ET & EV). apply obind_ok in EV. destruct EV as (cs & ER & EV).
  destruct (slice_eqb Code_eqb codes cs) eqn:ES; [|discriminate]. apply slice_eqb_true in ES; [|intros a b; apply Code_eqb_spec]. subst cs.
  set (t := mkTechnique config refs) in *. destruct (technique_of config _ _ _ _ EW) as (R & EP & EL & EPre).
  change (fits data (List.length (@nil N)) codes). rewrite <- EP. apply (restored data t R HB EPre _ _ _ _ ER).
Qed.

Lemma C65_lemma_restores : forall level preroll data codes hints,
  try_gzip level preroll data codes = Ok hints ->
  exists bytes, st_write hints = Ok bytes /\ bytes_to_codes level preroll data bytes = Ok codes.
Proof.
  intros level preroll data codes hints E. destruct (st_write hints) as [bytes| | |] eqn:EW;
    try (destruct (C45_lemma hints) as (bs & E1 & _); rewrite EW in E1; discriminate).
  exists bytes. split; [reflexivity|]. apply trace_bytes_back. unfold trace_to_bytes. rewrite E. exact EW.
Qed.

Lemma C65_lemma_refuted : exists data codes hints, bytes_ok data /\ Forall code_ok codes
  /\ try_gzip 1 [] data codes = Ok hints /\ ~ encodes [] data codes.
Proof.
  exists [1; 2; 3; 4; 5; 6; 7; 8], [Literal 1; Reference (mkRef 1 4)], [Correct; Actually (mkRef 1 4)].
  split; [repeat constructor|]. split; [constructor; [reflexivity|]; constructor; [|constructor]; unfold code_ok, ref_ok; cbn; lia|].
  split; [vm_compute; reflexivity|]. unfold encodes. vm_compute. discriminate.
Qed.

(** ** The tracing example *)
Lemma slice_near {A} (v : list A) pos : (pos <= List.length v)%nat ->
  exists l, slice v (pos - 5) (Nat.min (pos + 5) (List.length v)) = Ok l.
Proof.
  intro H. unfold slice. destruct (Nat.ltb_spec (Nat.min (pos + 5) (List.length v)) (pos - 5)); [lia|].
  destruct (Nat.ltb_spec (List.length v) (Nat.min (pos + 5) (List.length v))); [lia|]. eauto.
Qed.

Lemma hints_shown w t : refs_of w (t_refs t) -> bytes_ok w ->
  forall codes hints s, finishes w (sc_pos s) codes -> exists lines, listed_hints t w s hints codes = Ok lines.
Proof.
  intros R HB. induction codes as [|c codes IH]; intros hints s HF; destruct hints as [|h hints]; cbn [listed_hints]; eauto.
  assert (HE := finishes_emitted _ _ _ HF). assert (PE := emitted_pos c codes).
  destruct (slice_near w (sc_pos s) ltac:(lia)) as (loc & ES). rewrite ES. cbn [obind].
  destruct (guess_ok w t (cfg_lookahead (t_config t)) (sc_obscured s) (sc_pos s) R HB ltac:(lia)) as (gs & k & EG & _).
  assert (HF' : finishes w (sc_pos (feedback t s c)) codes).
  { rewrite feedback_pos. change (c :: codes) with ([c] ++ codes) in HF. apply finishes_app in HF. destruct HF as [_ HF].
    cbn [emitted] in HF. now rewrite Nat.add_0_r in HF. }
  destruct (IH hints _ HF') as (more & EM).
  destruct h; unfold sc_codes; rewrite ?EG; cbn [obind]; rewrite EM; cbn [obind]; eauto.
Qed.

Lemma try_trace_ok name config data limit refs codes : bytes_ok data -> Forall code_ok codes -> encodes [] data codes ->
  with_sixteen [] data limit = Ok refs -> exists lines, listed_try_trace refs name config codes data = Ok lines.
Proof.
  intros HB HC HE EW. unfold listed_try_trace. destruct (trace_lemma config [] data _ refs codes ltac:(constructor) HB EW HE) as (hints & ET & L & HI & _ & HR).
  unfold validate. rewrite ET. cbn [obind]. rewrite HR by auto. cbn [obind]. rewrite slice_eqb_refl by (intro; now apply Code_eqb_spec). cbn [obind].
  destruct (C43_lemma hints (hints_ok_of_codes _ _ HC HI)) as (bs & _ & _ & EV). rewrite EV. cbn [obind].
  destruct (technique_of config _ _ _ _ EW) as (R & EP & EL & EPre). cbn [app] in R.
  destruct (hints_shown data (mkTechnique config refs) R HB codes hints (scanner (mkTechnique config refs))) as (lines & EH).
  { rewrite EP. apply (finishes_encodes [] data codes). exact HE. }
  rewrite EH. cbn [obind]. eauto.
Qed.

Fixpoint listed_blocks (id : nat) (blocks : list Block) : M circ (list example_line) :=
  match blocks with
  | [] => ret []
  | b :: blocks' => lines <- listed_block id b ;; more <- listed_blocks (S id) blocks' ;; ret (lines ++ more)
  end.

Lemma listed_follows fuel : forall id it,
  match bi_drain fuel it with
  | (Ok blocks, _) => forall d, listed_loop fuel id it d = listed_blocks id blocks d
  | _ => True
  end.
Proof.
  induction fuel as [|fuel IH]; intros id it; cbn [bi_drain listed_loop]; [exact I|]. unfold bind at 1.
  destruct (bi_next it) as [[[b|]|e|m|] it'] eqn:E; try exact I.
  - unfold bind at 1. specialize (IH (S id) it'). destruct (bi_drain fuel it') as [[blocks|e|m|] it2]; try exact I; cbn [ret].
    intro d. cbn [listed_blocks]. unfold bind. destruct (listed_block id b d) as [[lines| | |] d']; auto. rewrite IH. reflexivity.
  - cbn [ret listed_blocks]. auto.
Qed.

Lemma print_ok codes d : Forall code_ok codes -> (exists data, encodes [] data codes) -> ring 32768 [] d ->
  exists lines d' data, listed_print codes d = (Ok lines, d') /\ ring 32768 data d' /\ encodes [] data codes.
Proof.
  intros HC (data & HE) R. unfold listed_print. destruct (ring_vec_ok _ _ R) as (l & EV & El). rewrite EV. rewrite (El eq_refl). clear EV El l.
  assert (X := block_run [] d (FixedHuffman codes) R). cbn [block_codes] in X. unfold encodes in HE. cbn [app] in HE. rewrite HE in X.
  destruct X as (data' & d' & ED & EB & _ & R'). cbn [app] in ED. subst data'. cbn [decompressed_block] in EB. rewrite EB. cbn [written].
  destruct (with_sixteen_ok [] data 4) as (r1 & E1 & _). destruct (with_sixteen_ok [] data 6) as (r2 & E2 & _). destruct (with_sixteen_ok [] data 65535) as (r3 & E3 & _).
  rewrite E1, E2, E3. cbn [obind].
  assert (HB : bytes_ok data).
  { apply (lz_decode_bytes 32768 codes [] data); [constructor|exact HC|exact HE]. }
  destruct (Config_gzip 1) as [c1| | |] eqn:G1; try discriminate. destruct Config_gzip_16_default as [c6| | |] eqn:G6; try discriminate. cbn [obind].
  destruct (try_trace_ok "gzip --fast" c1 data 4 r1 codes HB HC HE E1) as (l1 & T1). rewrite T1. cbn [obind].
  destruct (try_trace_ok "gzip [--default]" c6 data 65535 r3 codes HB HC HE E3) as (l6 & T6). rewrite T6. cbn [obind].
  eexists _, d', data. split; [reflexivity|]. split; [exact R'|exact HE].
Qed.

Lemma stored_shown blocks : (forall b, In b blocks -> exists data, b = Uncompressed data) -> forall id hist d, ring 32768 hist d ->
  exists lines, fst (listed_blocks id blocks d) = Ok lines.
Proof.
  induction blocks as [|b blocks IH]; intros HS id hist d R; cbn [listed_blocks ret fst]; [eauto|].
  destruct (HS b (or_introl eq_refl)) as (data & ->). unfold bind at 1. unfold listed_block. unfold bind at 1.
  destruct (ring_extend _ data _ _ R) as (d' & E & R'). rewrite E. cbn [ret].
  destruct (IH (fun x h => HS x (or_intror h)) (S id) _ _ R') as (more & EM). unfold bind.
  destruct (listed_blocks (S id) blocks d') as [[l| | |] d2]; cbn [fst ret] in *; try discriminate. eauto.
Qed.

Lemma blocks_shown blocks : forall id d, first_compressed blocks -> Forall block_wf blocks ->
  (exists data, encodes [] data (flat_map block_codes blocks)) -> ring 32768 [] d ->
  exists lines, fst (listed_blocks id blocks d) = Ok lines.
Proof.
  induction blocks as [|b blocks IH]; intros id d HF HW (data & HE) R; [cbn; eauto|].
  inversion_clear HW as [|? ? WB HW'].
  assert (REST : block_codes b = [] \/ (forall x, In x blocks -> exists dd, x = Uncompressed dd)).
  { destruct (block_codes b) as [|c0 cs0] eqn:EB; [now left|]. right. intros x HI. apply in_split in HI. destruct HI as (l1 & l2 & ->).
    destruct (HF (b :: l1) x l2 eq_refl) as [X|X]; [|exact X]. cbn [flat_map] in X. rewrite EB in X. discriminate. }
  assert (HF' : first_compressed blocks).
  { intros before x after ->. destruct (HF (b :: before) x after eq_refl) as [X|X]; [|auto]. left. cbn [flat_map] in X. now apply app_eq_nil in X. }
  unfold encodes in HE. cbn [flat_map app] in HE. rewrite lz_decode_app in HE.
  destruct (lz_decode 32768 [] (block_codes b)) as [h1|] eqn:E1; [|discriminate].
  assert (STEP : exists lines d' , listed_block id b d = (Ok lines, d') /\ ring 32768 h1 d').
  { unfold listed_block, bind at 1. destruct b as [dd|cs|v cs]; cbn [block_codes block_wf] in *.
    - rewrite lz_literals in E1. injection E1 as <-. destruct (ring_extend _ dd _ _ R) as (d' & E & R'). rewrite E. eexists _, d'. split; [reflexivity|exact R'].
    - destruct (print_ok cs d WB (ex_intro _ h1 E1) R) as (lines & d' & dt & EP & R' & HE'). unfold bind. rewrite EP. cbn [ret].
      unfold encodes in HE'. cbn [app] in HE'. rewrite E1 in HE'. injection HE' as <-. eexists _, d'. split; [reflexivity|exact R'].
    - destruct (print_ok cs d WB (ex_intro _ h1 E1) R) as (lines & d' & dt & EP & R' & HE'). unfold bind. rewrite EP. cbn [ret].
      unfold encodes in HE'. cbn [app] in HE'. rewrite E1 in HE'. injection HE' as <-. eexists _, d'. split; [reflexivity|exact R']. }
  destruct STEP as (lines & d' & ES & R'). cbn [listed_blocks]. unfold bind. rewrite ES.
  assert (NEXT : exists more, fst (listed_blocks (S id) blocks d') = Ok more).
  { destruct REST as [EN|HS].
    - rewrite EN in E1. cbn [lz_decode] in E1. injection E1 as <-. apply IH; auto. exists data. exact HE.
    - exact (stored_shown blocks HS (S id) h1 d' R'). }
  destruct NEXT as (more & EM). destruct (listed_blocks (S id) blocks d') as [[l| | |] d2]; cbn [fst ret] in *; try discriminate. eauto.
Qed.

Lemma C66_lemma : forall file e header stream trailer blocks, bytes_ok file ->
  file = header ++ stream ++ trailer -> gzip_header header -> stream_bits 0 blocks (bits_of_bytes stream) ->
  (exists data, encodes [] data (flat_map block_codes blocks)) -> first_compressed blocks ->
  exists lines, example_run (mkSource file e) = (lines, Ok tt).
Proof.
  intros file e h used tail blocks HB EF GH SB HE HF. cut (exists lines, listed_run (mkSource file e) = Ok lines).
  { intros (lines & E). exists lines. now apply run_ok. } unfold listed_run.
  assert (EH : discard_header (mkSource file e) = (Ok h, mkSource (used ++ tail) e)) by (apply C31_lemma; auto).
  rewrite EH. cbn [rest]. assert (HBB : bytes_ok (used ++ tail)) by (rewrite EF in HB; apply Forall_app in HB; apply HB).
  destruct (proj2 (parse_all_iff (used ++ tail) e blocks tail HBB)) as (it & EP & _); [eauto|].
  destruct (parse_all_wf _ _ _ _ HBB EP) as (WF & _).
  assert (DF := listed_follows (8 * List.length (used ++ tail) + 2) 0 (parse_deflate (mkSource (used ++ tail) e))).
  unfold parse_all in EP. cbn [rest] in EP. rewrite EP in DF.
  destruct (ring_new 32768 ltac:(lia)) as (d & E0 & R0). unfold cb_new. change (cb_with_capacity 32768) with (cb_with_capacity (32 * 1024)) in E0.
  rewrite E0. cbn [obind]. rewrite DF. now apply blocks_shown.
Qed.

(** Nine literals, then a block with a single one: its place is looked up in the second block alone. *)
Lemma C66_lemma_refuted : exists file header stream trailer blocks m, bytes_ok file
  /\ file = header ++ stream ++ trailer /\ gzip_header header /\ stream_bits 0 blocks (bits_of_bytes stream)
  /\ (exists data, encodes [] data (flat_map block_codes blocks))
  /\ snd (example_run (mkSource file UnexpectedEof)) = Panic m.
Proof.
  set (h := [31; 139; 8; 0; 0; 0; 0; 0; 0; 3]). set (s := [0; 9; 0; 246; 255; 1; 2; 3; 4; 5; 6; 7; 8; 9; 51; 0; 0]). set (bl := [Uncompressed [1;2;3;4;5;6;7;8;9]; FixedHuffman [Literal 48]]).
  assert (P : exists it, parse_all (mkSource (s ++ []) UnexpectedEof) = (Ok bl, it)
                         /\ br_into_inner (bi_inner it) = Ok (mkSource [] UnexpectedEof)).
  { eexists. split; vm_compute; reflexivity. }
  apply parse_all_iff in P; [|repeat constructor]. destruct P as (used & EU & SB). apply app_inv_tail in EU. subst used.
  exists (h ++ s ++ []), h, s, [], bl. eexists. split; [repeat constructor|]. split; [reflexivity|]. split.
  - assert (X := proj1 (C31_lemma h UnexpectedEof h [] ltac:(repeat constructor))). apply X. vm_compute. reflexivity.
  - split; [exact SB|]. split; [eexists; vm_compute; reflexivity|]. vm_compute. reflexivity.
Qed.
