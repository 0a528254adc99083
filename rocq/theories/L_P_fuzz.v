(** Proofs of C65 (exactly) and C68. *)
From Verif Require Import Base M_bit M_lib M_parse M_all_refs M_technique M_trace M_example M_fuzz Spec Clients Clients_tracing Spec_encoder Clients_encoder
  L_bits L_ring L_parse L_P_parse L_search L_P_search L_tech L_P_tech L_trace L_strace L_P_trace L_P_e2e L_P_tracing L_P_encoder.
From Coq Require Import ZArith ZifyBool ZifyNat ZifyN.
Ltac Zify.zify_post_hook ::= Z.div_mod_to_equations.
Local Open Scope N_scope.
Local Open Scope model_scope.

(** ** try_gzip accepts exactly the codes that fit *)
Lemma code_eqb_refl c : Code_eqb c c = true.
Proof. now apply Code_eqb_spec. Qed.

Lemma fits_traced w t : refs_of w (t_refs t) -> bytes_ok w -> ar_preroll (t_refs t) = [] ->
  (forall runs pos, (pos < List.length w)%nat -> exists code, sc_codes t (mkScanner runs pos) = Ok [code]) ->
  forall fuel s codes, fits w (sc_pos s) codes -> (List.length w - sc_pos s < fuel)%nat ->
  exists hints, trace_loop fuel t s codes = Ok hints /\ restore_loop fuel t s hints = Ok codes
    /\ forall r, In (Actually r) hints -> In (Reference r) codes.
Proof.
  intros R HB P0 G. induction fuel as [|fuel IH]; intros s codes HF HL; [lia|]. cbn [trace_loop restore_loop].
  rewrite (more_data_spec w) by assumption. destruct (Nat.ltb_spec (sc_pos s) (List.length w)) as [Hp|Hp].
  - destruct codes as [|c codes]; [cbn [fits] in HF; lia|].
    assert (HN : fits w (sc_pos (feedback t s c)) codes /\ (forall b, c = Literal b -> nth_error w (sc_pos s) = Some b)).
    { rewrite feedback_pos. destruct c as [b|r]; cbn [fits emitted_bytes] in *; (split; [apply HF|]); [intros b' [= <-]; apply HF|discriminate]. }
    destruct HN as [HN HLit]. assert (PS : (1 <= N.to_nat (emitted_bytes c))%nat) by (destruct c; cbn [emitted_bytes]; unfold r_run; lia).
    destruct (IH (feedback t s c) codes HN ltac:(rewrite feedback_pos; lia)) as (hints & ET & ER & HI).
    destruct s as [runs pos]. destruct (G runs pos Hp) as (g & EG). rewrite EG. cbn [obind shared_prefix].
    destruct (Code_eqb c g) eqn:EC.
    + apply Code_eqb_spec in EC. subst g. cbn [fold_left map List.length Nat.eqb]. rewrite ET. cbn [obind app]. exists (Correct :: hints).
      split; [reflexivity|]. cbn [restore_guesses obind]. rewrite ER. cbn [obind app]. split; [reflexivity|]. intros r [X|X]; [discriminate|]. right. auto.
    + cbn [fold_left map List.length Nat.eqb app]. rewrite ET. cbn [obind]. exists (hint_of c :: hints). split; [reflexivity|].
      cbn [restore_guesses]. destruct c as [b|r]; cbn [hint_of].
      * assert (EB : byte_at t pos = Ok b).
        { destruct R as [EW _]. rewrite P0 in EW. cbn [app] in EW. unfold byte_at, get_idx. rewrite EW. cbn [sc_pos] in HLit. rewrite (HLit b eq_refl). reflexivity. }
        cbn [sc_pos]. rewrite EB. cbn [obind]. rewrite ER. cbn [obind app]. split; [reflexivity|]. intros r [X|X]; [discriminate|]. right. auto.
      * cbn [obind]. rewrite ER. cbn [obind app]. split; [reflexivity|]. intros r' [X|X]; [injection X as <-; now left|]. right. auto.
  - exists []. split; [reflexivity|]. split; [|intros r []].
    destruct codes as [|[b|r] codes]; [reflexivity|exfalso|exfalso]; cbn [fits] in HF.
    + destruct HF as [X _]. assert (nth_error w (sc_pos s) = None) by now apply nth_error_None. congruence.
    + lia.
Qed.

Lemma C65_lemma_exact : forall level data codes, 1 <= level <= 9 -> bytes_ok data -> Forall code_ok codes ->
  ((exists hints, try_gzip level [] data codes = Ok hints) <-> fits data 0 codes).
Proof.
  intros level data codes HL HB HC. split; [intros (hints & E); eapply C65_lemma; eassumption|]. intro HF.
  destruct (gzip_levels_config level HL) as (c & EC). unfold try_gzip, tracer_try. rewrite EC. cbn [obind].
  set (limit := match insert_only_below_length (cfg_wams c) with Some l => l | None => 65535 end).
  destruct (with_sixteen_ok [] data limit) as (refs & EW & _). rewrite EW. cbn [obind].
  destruct (technique_of c _ _ _ _ EW) as (R & EP & EL & EPre). cbn [app List.length] in *.
  destruct (fits_traced data (mkTechnique c refs) R HB EPre) with (fuel := S (sc_data_len (mkTechnique c refs))) (s := scanner (mkTechnique c refs)) (codes := codes)
    as (hints & ET & ER & HI).
  - intros runs pos Hp. exact (C61_lemma_greedy level c [] data limit refs runs pos EC EW Hp).
  - now rewrite EP.
  - rewrite EP, EL. lia.
  - exists hints. unfold validate, trace, restore. rewrite ET. cbn [obind]. rewrite ER. cbn [obind]. rewrite slice_eqb_refl by apply code_eqb_refl. cbn [obind].
    destruct (C43_lemma hints (hints_ok_of_codes _ _ HC HI)) as (bs & _ & _ & EV). rewrite EV. reflexivity.
Qed.

(** ** All correct *)
Lemma every_correct_spec hints : every_correct hints = true <-> hints = repeat Correct (List.length hints).
Proof.
  unfold every_correct. induction hints as [|h hints IH]; cbn [forallb repeat List.length]; [split; reflexivity|].
  destruct h; cbn [Trace_eqb]; [|split; discriminate|split; discriminate]. cbn [andb]. rewrite IH. split; [intro X; now rewrite <- X|intro X; injection X as X; exact X].
Qed.

Lemma correct_greedy level data codes : 1 <= level <= 9 -> bytes_ok data -> Forall code_ok codes ->
  ((exists hints, try_gzip level [] data codes = Ok hints /\ every_correct hints = true) <-> gzip_greedy data level 0 codes).
Proof.
  intros HL HB HC. split.
  - intros (hints & E & HA). apply every_correct_spec in HA. destruct (gzip_levels_config level HL) as (c & EC). rewrite <- (gzip_config level c EC).
    unfold try_gzip, tracer_try in E. rewrite EC in E. cbn [obind] in E. set (limit := match insert_only_below_length (cfg_wams c) with Some l => l | None => 65535 end) in *.
    apply obind_ok in E. destruct E as (refs & EW & E). apply obind_ok in E. destruct E as (tr & EV & E). apply obind_ok in E. destruct E as (_ & _ & E). injection E as ->.
    unfold validate in EV. apply obind_ok in EV. destruct EV as (tr' & ET & EV). apply obind_ok in EV. destruct EV as (cs & ER & EV).
    destruct (slice_eqb Code_eqb codes cs) eqn:ES; [|discriminate]. apply slice_eqb_true in ES; [|intros a b; apply Code_eqb_spec]. subst cs. injection EV as ->.
    rewrite HA in ER. apply (C58_lemma_restore c [] data limit refs codes _ ltac:(constructor) HB EW) in ER. apply ER.
  - intro HG. destruct (C58_lemma_unique level [] data HL ltac:(constructor) HB) as (cs & _ & HE & _ & HU). cbn [app List.length] in HU. rewrite <- (HU _ HG) in HE.
    exists (repeat Correct (List.length codes)). split; [now apply (C58_lemma_gzip level [] data codes HL ltac:(constructor) HB HC HE)|].
    apply every_correct_spec. now rewrite repeat_length.
Qed.

(** ** The first block *)
Lemma first_block bytes b blocks : bytes_ok bytes -> (exists used tail, bytes = used ++ tail /\ stream_bits 0 (b :: blocks) (bits_of_bytes used)) ->
  fst (bi_next (parse_deflate (mkSource bytes UnexpectedEof))) = Ok (Some b) /\ block_wf b.
Proof.
  intros HB (used & tail & E & SB). destruct (proj2 (parse_all_iff bytes UnexpectedEof (b :: blocks) tail HB)) as (it & EP & _); [eauto|].
  destruct (parse_all_wf _ _ _ _ HB EP) as (WF & _). split; [|now inversion WF].
  unfold parse_all in EP. replace (8 * List.length (rest (mkSource bytes UnexpectedEof)) + 2)%nat with (S (8 * List.length bytes + 1))%nat in EP by (cbn [rest]; lia).
  cbn [bi_drain] in EP. unfold bind in EP.
  destruct (bi_next _) as [o it'] eqn:EN. cbn [fst]. destruct o as [[b'|]| | |]; try discriminate EP.
  destruct (bi_drain _ it') as [[bs| | |] it2] eqn:ED; cbn [ret] in EP; try discriminate EP. unfold ret in EP. injection EP as -> _ _. reflexivity.
Qed.

Lemma wf_codes b : block_wf b -> Forall code_ok (block_codes b).
Proof. intro WB. unfold block_wf in WB. destruct b; cbn [block_codes]; auto. apply Forall_map. apply WB. Qed.

Lemma body_of header stream trailer : List.length header = 10%nat -> List.length trailer = 8%nat -> gzip_body (header ++ stream ++ trailer) = Ok stream.
Proof.
  intros H1 H2. unfold gzip_body, slice. rewrite !app_length, H1, H2.
  destruct (Nat.ltb_spec (10 + (List.length stream + 8)) 8); [lia|]. destruct (Nat.ltb_spec (10 + (List.length stream + 8) - 8) 10); [lia|].
  destruct (Nat.ltb_spec (10 + (List.length stream + 8)) (10 + (List.length stream + 8) - 8)); [lia|].
  replace (10 + (List.length stream + 8) - 8)%nat with (List.length (header ++ stream)) by (rewrite app_length; lia).
  rewrite app_assoc, firstn_app, Nat.sub_diag, firstn_O, app_nil_r, firstn_all. rewrite skipn_app, H1, Nat.sub_diag, <- H1, skipn_all. reflexivity.
Qed.

Lemma C68_lemma : forall data header stream trailer b blocks r, bytes_ok data -> bytes_ok stream ->
  List.length header = 10%nat -> List.length trailer = 8%nat -> stream_bits 0 (b :: blocks) (bits_of_bytes stream) ->
  (fuzz_trace_gzip_1 data (header ++ stream ++ trailer) = Ok r
   <-> (data = [] /\ r = FEmpty)
       \/ (data <> [] /\ (exists d, b = Uncompressed d) /\ r = FStored)
       \/ (data <> [] /\ (forall d, b <> Uncompressed d) /\ gzip_greedy data 1 0 (block_codes b) /\ r = FSuccess)).
Proof.
  intros data h st tl b blocks r HD HS H1 H2 SB. unfold fuzz_trace_gzip_1. destruct data as [|x data].
  { split; [intros [= <-]; auto|]. intros [[_ ->]|[[X _]|[X _]]]; [reflexivity|now destruct X..]. }
  assert (NE : x :: data <> []) by discriminate. set (dat := x :: data) in *.
  rewrite (body_of h st tl H1 H2). cbn [obind]. unfold fuzz_codes.
  destruct (first_block st b blocks HS) as [EB WB]; [exists st, []; now rewrite app_nil_r|]. rewrite EB.
  assert (CG := correct_greedy 1 dat (block_codes b) ltac:(lia) HD (wf_codes b WB)).
  assert (KEY : forall codes, codes = block_codes b -> (forall d, b <> Uncompressed d) ->
    ((hints <-? try_gzip 1 [] dat codes ;; (if every_correct hints then Ok FSuccess else Panic "explicit panic")) = Ok r
     <-> (dat = [] /\ r = FEmpty) \/ (dat <> [] /\ (exists d, b = Uncompressed d) /\ r = FStored)
       \/ (dat <> [] /\ (forall d, b <> Uncompressed d) /\ gzip_greedy dat 1 0 (block_codes b) /\ r = FSuccess))).
  { intros codes -> NU. split.
    - intro E. apply obind_ok in E. destruct E as (hints & E & EA). destruct (every_correct hints) eqn:HA; [|discriminate]. injection EA as <-.
      right. right. split; [exact NE|]. split; [exact NU|]. split; [apply CG; eauto|reflexivity].
    - intros [[X _]|[[_ [(d & X) _]]|(_ & _ & HG & ->)]]; [now destruct NE|now destruct (NU d)|]. apply CG in HG. destruct HG as (hints & E & HA). rewrite E. cbn [obind]. now rewrite HA. }
  destruct b as [d|cs|v cs]; cbn [obind].
  - split; [intros [= <-]; right; left; eauto|]. intros [[X _]|[(_ & _ & ->)|(_ & X & _)]]; [now destruct NE|reflexivity|now destruct (X d)].
  - apply KEY; [reflexivity|discriminate].
  - apply KEY; [reflexivity|discriminate].
Qed.

Lemma C68_lemma_exec : forall data compressed header body trailer b blocks r, bytes_ok data -> bytes_ok compressed ->
  List.length header = 10%nat -> List.length trailer = 8%nat -> stream_bits 0 (b :: blocks) (bits_of_bytes compressed) ->
  (fuzz_exec_gzip data compressed (header ++ body ++ trailer) = Ok r
   <-> (data = [] /\ r = FEmpty)
       \/ (data <> [] /\ (exists d, b = Uncompressed d) /\ r = FStored)
       \/ (data <> [] /\ (forall d, b <> Uncompressed d) /\ gzip_greedy data 1 0 (block_codes b) /\ r = FSuccess)
       \/ (data <> [] /\ (forall d, b <> Uncompressed d) /\ ~ gzip_greedy data 1 0 (block_codes b)
           /\ fits data 0 (block_codes b) /\ compressed <> body /\ r = FDifferent)).
Proof.
  intros data st h body tl b blocks r HD HS H1 H2 SB. unfold fuzz_exec_gzip. destruct data as [|x data].
  { split; [intros [= <-]; auto|]. intros [[_ ->]|[[X _]|[[X _]|[X _]]]]; [reflexivity|now destruct X..]. }
  assert (NE : x :: data <> []) by discriminate. set (dat := x :: data) in *.
  unfold fuzz_codes. destruct (first_block st b blocks HS) as [EB WB]; [exists st, []; now rewrite app_nil_r|]. rewrite EB.
  assert (CG := correct_greedy 1 dat (block_codes b) ltac:(lia) HD (wf_codes b WB)).
  assert (CF := C65_lemma_exact 1 dat (block_codes b) ltac:(lia) HD (wf_codes b WB)).
  assert (KEY : forall codes, codes = block_codes b -> (forall d, b <> Uncompressed d) ->
    ((hints <-? try_gzip 1 [] dat codes ;;
      if every_correct hints then Ok FSuccess
      else bod <-? gzip_body (h ++ body ++ tl) ;; if slice_eqb N.eqb st bod then Panic "explicit panic" else Ok FDifferent) = Ok r
     <-> (dat = [] /\ r = FEmpty) \/ (dat <> [] /\ (exists d, b = Uncompressed d) /\ r = FStored)
       \/ (dat <> [] /\ (forall d, b <> Uncompressed d) /\ gzip_greedy dat 1 0 (block_codes b) /\ r = FSuccess)
       \/ (dat <> [] /\ (forall d, b <> Uncompressed d) /\ ~ gzip_greedy dat 1 0 (block_codes b)
           /\ fits dat 0 (block_codes b) /\ st <> body /\ r = FDifferent))).
  { intros codes -> NU. rewrite (body_of h body tl H1 H2). cbn [obind]. split.
    - intro E. apply obind_ok in E. destruct E as (hints & E & EA). destruct (every_correct hints) eqn:HA.
      + injection EA as <-. right. right. left. split; [exact NE|]. split; [exact NU|]. split; [apply CG; eauto|reflexivity].
      + destruct (slice_eqb N.eqb st body) eqn:EQ; [discriminate|]. injection EA as <-. right. right. right. split; [exact NE|]. split; [exact NU|].
        split; [|split; [apply CF; eauto|split; [|reflexivity]]].
        * intro HG. apply CG in HG. destruct HG as (h2 & E2 & HA2). rewrite E in E2. injection E2 as <-. congruence.
        * intros ->. rewrite slice_eqb_refl in EQ; [discriminate|]. apply N.eqb_refl.
    - intros [[X _]|[[_ [(d & X) _]]|[(_ & _ & HG & ->)|(_ & _ & HG & HF & NQ & ->)]]]; [now destruct NE|now destruct (NU d)| |].
      + apply CG in HG. destruct HG as (hints & E & HA). rewrite E. cbn [obind]. now rewrite HA.
      + apply CF in HF. destruct HF as (hints & E). rewrite E. cbn [obind]. destruct (every_correct hints) eqn:HA; [destruct HG; apply CG; eauto|].
        destruct (slice_eqb N.eqb st body) eqn:EQ; [|reflexivity]. apply slice_eqb_true in EQ; [contradiction|]. intros a b0. apply N.eqb_eq. }
  destruct b as [d|cs|v cs]; cbn [obind].
  - split; [intros [= <-]; right; left; eauto|]. intros [[X _]|[(_ & _ & ->)|[(_ & X & _)|(_ & X & _)]]]; [now destruct NE|reflexivity|now destruct (X d)..].
  - apply KEY; [reflexivity|discriminate].
  - apply KEY; [reflexivity|discriminate].
Qed.

(** ** False alarms *)
Lemma C68_lemma_refuted : exists data header stream trailer blocks m, bytes_ok data /\ bytes_ok stream
  /\ List.length header = 10%nat /\ List.length trailer = 8%nat /\ stream_bits 0 blocks (bits_of_bytes stream)
  /\ encodes [] data (flat_map block_codes blocks) /\ gzip_greedy data 1 0 (flat_map block_codes blocks)
  /\ fuzz_trace_gzip_1 data (header ++ stream ++ trailer) = Panic m.
Proof.
  exists [1; 2; 3], [31; 139; 8; 0; 0; 0; 0; 0; 4; 3], [98; 100; 2; 140; 25; 0], [1; 2; 3; 4; 3; 0; 0; 0], [FixedHuffman [Literal 1; Literal 2]; FixedHuffman [Literal 3]]. eexists.
  split; [repeat constructor|]. assert (HB : bytes_ok [98; 100; 2; 140; 25; 0]) by (repeat constructor). split; [exact HB|]. split; [reflexivity|]. split; [reflexivity|].
  split.
  { destruct (proj1 (parse_all_iff _ UnexpectedEof [FixedHuffman [Literal 1; Literal 2]; FixedHuffman [Literal 3]] [] HB)) as (used & E & H).
    - eexists. split; vm_compute; reflexivity.
    - rewrite app_nil_r in E. rewrite E. exact H. }
  assert (HE : encodes [] [1; 2; 3] (flat_map block_codes [FixedHuffman [Literal 1; Literal 2]; FixedHuffman [Literal 3]])) by (vm_compute; reflexivity).
  split; [exact HE|]. split; [|vm_compute; reflexivity].
  apply (C58_lemma_gzip 1 [] [1; 2; 3]); [lia|constructor|repeat constructor|repeat constructor|exact HE|]. vm_compute. reflexivity.
Qed.

(** ** The targets always end *)
Definition ok_or_panic {A} (o : outcome A) : Prop := match o with Ok _ | Panic _ => True | Err _ | Diverge => False end.

Lemma op_bind {A B} (o : outcome A) (k : A -> outcome B) : ok_or_panic o -> (forall a, o = Ok a -> ok_or_panic (k a)) -> ok_or_panic (obind o k).
Proof. destruct o; cbn [obind ok_or_panic]; auto; tauto. Qed.

Lemma trace_ends w t : refs_of w (t_refs t) -> bytes_ok w -> forall fuel s codes, (List.length w - sc_pos s < fuel)%nat -> ok_or_panic (trace_loop fuel t s codes).
Proof.
  intros R HB. induction fuel as [|fuel IH]; intros s codes HL; [lia|]. cbn [trace_loop].
  rewrite (more_data_spec w) by assumption. destruct (Nat.ltb_spec (sc_pos s) (List.length w)) as [Hp|Hp]; [|exact I].
  destruct (guess_ok w t (cfg_lookahead (t_config t)) (sc_obscured s) (sc_pos s) R HB Hp) as (gs & k & EG & _).
  unfold sc_codes. rewrite EG. cbn [obind]. destruct gs as [|g gs]; [exact I|].
  destruct (shared_prefix (g :: gs) codes) as [m rest] eqn:ESP.
  destruct (Nat.eqb_spec (List.length m) (List.length (g :: gs))) as [EL|_].
  - apply op_bind; [|intros; exact I]. apply IH. rewrite feedback_fold_pos. destruct m as [|c m]; [discriminate|]. assert (X := emitted_pos c m). lia.
  - destruct rest as [|c rest]; [exact I|]. apply op_bind; [|intros; exact I]. apply IH. rewrite feedback_pos, feedback_fold_pos.
    assert (X := emitted_pos c []). cbn [emitted] in X. lia.
Qed.

Lemma restore_guesses_ends t gs : forall s tr, ok_or_panic (restore_guesses t gs s tr)
  /\ forall l s' tr', restore_guesses t gs s tr = Ok (l, s', tr') -> gs <> [] -> (sc_pos s < sc_pos s')%nat.
Proof.
  assert (PS : forall c, (1 <= N.to_nat (emitted_bytes c))%nat) by (intros [?|?]; cbn [emitted_bytes]; unfold r_run; lia).
  induction gs as [|g gs IH]; intros s tr; cbn [restore_guesses]; [split; [exact I|intros ? ? ? _ []; reflexivity]|].
  destruct tr as [|h tr]; [split; [exact I|discriminate]|].
  destruct (IH (feedback t s g) tr) as [I1 I2]. destruct h; cbn [obind].
  - split; [apply op_bind; [exact I1|intros [[? ?] ?] _; exact I]|]. intros l s' tr' E _. apply obind_ok in E. destruct E as ([[l0 s0] tr0] & E & E2). injection E2 as <- <- <-.
    specialize (PS g). destruct gs as [|g' gs]; [cbn [restore_guesses] in E; injection E as _ <- _; rewrite feedback_pos; lia|].
    specialize (I2 _ _ _ E ltac:(discriminate)). rewrite feedback_pos in I2. lia.
  - unfold byte_at, get_idx. destruct (nth_error _ _); cbn [obind]; (split; [exact I|]); [|discriminate]. intros l s' tr' [= _ <- _] _. rewrite feedback_pos. cbn [emitted_bytes]. lia.
  - split; [exact I|]. intros l s' tr' [= _ <- _] _. rewrite feedback_pos. specialize (PS (Reference r)). lia.
Qed.

Lemma restore_ends w t : refs_of w (t_refs t) -> bytes_ok w -> forall fuel s tr, (List.length w - sc_pos s < fuel)%nat -> ok_or_panic (restore_loop fuel t s tr).
Proof.
  intros R HB. induction fuel as [|fuel IH]; intros s tr HL; [lia|]. cbn [restore_loop].
  rewrite (more_data_spec w) by assumption. destruct (Nat.ltb_spec (sc_pos s) (List.length w)) as [Hp|Hp]; [|exact I].
  destruct (guess_ok w t (cfg_lookahead (t_config t)) (sc_obscured s) (sc_pos s) R HB Hp) as (gs & k & EG & _).
  unfold sc_codes. rewrite EG. cbn [obind]. destruct gs as [|g gs]; [exact I|].
  destruct (restore_guesses_ends t (g :: gs) s tr) as [I1 I2]. apply op_bind; [exact I1|]. intros [[l s'] tr'] E. apply op_bind; [|intros; exact I].
  apply IH. specialize (I2 _ _ _ E ltac:(discriminate)). lia.
Qed.

Lemma traced_actually t fuel : forall s codes hints, trace_loop fuel t s codes = Ok hints -> forall r, In (Actually r) hints -> In (Reference r) codes.
Proof.
  induction fuel as [|fuel IH]; intros s codes hints E r HI; cbn [trace_loop] in E; [discriminate|].
  destruct (more_data t s); [|injection E as <-; destruct HI]. apply obind_ok in E. destruct E as (gs & _ & E). destruct gs as [|g gs]; [discriminate|].
  destruct (shared_prefix (g :: gs) codes) as [m rest] eqn:ESP. destruct (shared_prefix_spec _ _ _ _ ESP) as (more & _ & -> & _). apply in_or_app.
  assert (NM : ~ In (Actually r) (map (fun _ => Correct) m)) by (intro X; apply in_map_iff in X; destruct X as (? & X & _); discriminate).
  destruct (Nat.eqb _ _).
  - apply obind_ok in E. destruct E as (mo & E & E2). injection E2 as <-. apply in_app_or in HI. destruct HI as [HI|HI]; [contradiction|]. right. eapply IH; eassumption.
  - destruct rest as [|c rest]; [discriminate|]. apply obind_ok in E. destruct E as (mo & E & E2). injection E2 as <-. apply in_app_or in HI. destruct HI as [HI|HI]; [contradiction|].
    right. destruct HI as [HI|HI]; [left; destruct c; cbn [hint_of] in HI; [discriminate|now injection HI as ->]|]. right. eapply IH; eassumption.
Qed.

Lemma try_gzip_ends level preroll data codes : 1 <= level <= 9 -> bytes_ok preroll -> bytes_ok data -> Forall code_ok codes -> ok_or_panic (try_gzip level preroll data codes).
Proof.
  intros HL B1 B2 HC. destruct (gzip_levels_config level HL) as (c & EC). unfold try_gzip, tracer_try. rewrite EC. cbn [obind].
  destruct (with_sixteen_ok preroll data (match insert_only_below_length (cfg_wams c) with Some l => l | None => 65535 end)) as (refs & EW & _). rewrite EW. cbn [obind].
  destruct (technique_of c _ _ _ _ EW) as (R & EP & EL & _). assert (HB : bytes_ok (preroll ++ data)) by (apply Forall_app; auto).
  apply op_bind.
  - unfold validate. apply op_bind; [apply (trace_ends _ _ R HB); rewrite EL; lia|]. intros tr ET.
    apply op_bind; [apply (restore_ends _ _ R HB); rewrite EL; lia|]. intros cs _. destruct (slice_eqb _ _ _); exact I.
  - intros tr EV. unfold validate in EV. apply obind_ok in EV. destruct EV as (tr' & ET & EV). apply obind_ok in EV. destruct EV as (cs & _ & EV).
    destruct (slice_eqb _ _ _); [|discriminate]. injection EV as <-.
    destruct (C43_lemma tr' (hints_ok_of_codes _ _ HC (traced_actually _ _ _ _ _ ET))) as (bs & _ & _ & E). rewrite E. exact I.
Qed.

Lemma fuzz_codes_ends compressed : bytes_ok compressed -> ok_or_panic (fuzz_codes compressed) /\ forall codes, fuzz_codes compressed = Ok (Some codes) -> Forall code_ok codes.
Proof.
  intro HB. destruct (C16_lemma compressed UnexpectedEof HB) as [_ HR]. specialize (HR 1%nat). assert (HO := C17_lemma compressed UnexpectedEof 1%nat).
  cbn [call_next] in HR, HO. unfold fuzz_codes. destruct (bi_next _) as [o it]. cbn [fst] in *. cbn [app] in *.
  inversion HR as [|? ? HR1 _]; subst. destruct o as [[[d|cs|v cs]|]| | |]; cbn [ok_or_panic returns] in *; (split; [try exact I; contradiction|]); intros codes E; try discriminate.
  - injection E as <-. exact (HO _ HB (or_introl eq_refl)).
  - injection E as <-. exact (HO _ HB (or_introl eq_refl)).
Qed.

Lemma slice_ends {A} (v : list A) a b : ok_or_panic (slice v a b).
Proof. unfold slice. destruct (Nat.ltb _ _); [exact I|]. destruct (Nat.ltb _ _); exact I. Qed.
Lemma slice_bytes v a b l : bytes_ok v -> slice v a b = Ok l -> bytes_ok l.
Proof.
  unfold slice. destruct (Nat.ltb _ _); [discriminate|]. destruct (Nat.ltb _ _); [discriminate|]. intros HB [= <-].
  unfold bytes_ok in *. apply Forall_forall. intros x HX. rewrite Forall_forall in HB. apply HB. apply (firstn_In b). rewrite <- (firstn_skipn a). apply in_or_app. now right.
Qed.

Lemma C68_lemma_ends : forall data compressed gzip_file, bytes_ok data -> bytes_ok compressed -> bytes_ok gzip_file ->
  ((exists r, fuzz_trace_gzip_1 data gzip_file = Ok r) \/ (exists m, fuzz_trace_gzip_1 data gzip_file = Panic m))
  /\ ((exists r, fuzz_exec_gzip data compressed gzip_file = Ok r) \/ (exists m, fuzz_exec_gzip data compressed gzip_file = Panic m)).
Proof.
  intros data compressed file HD HC HF.
  assert (X : forall A (o : outcome A), ok_or_panic o -> (exists r, o = Ok r) \/ (exists m, o = Panic m)).
  { intros A [a|e|m|] H; cbn [ok_or_panic] in H; try contradiction; eauto. }
  assert (GB : ok_or_panic (gzip_body file)) by (unfold gzip_body; destruct (Nat.ltb _ _); [exact I|apply slice_ends]).
  assert (FC : forall bytes (k : list Trace -> outcome fuzz_end), bytes_ok bytes -> (forall h, ok_or_panic (k h)) ->
     ok_or_panic (o <-? fuzz_codes bytes ;; match o with None => Ok FStored | Some codes => hints <-? try_gzip 1 [] data codes ;; k hints end)).
  { intros bytes k HB HK. destruct (fuzz_codes_ends bytes HB) as [F1 F2]. apply op_bind; [exact F1|]. intros [codes|] E; [|exact I].
    apply op_bind; [apply try_gzip_ends; [lia|constructor|exact HD|now apply F2]|]. intros h _. apply HK. }
  split; apply X.
  - unfold fuzz_trace_gzip_1. destruct data as [|x data]; [exact I|]. apply op_bind; [exact GB|]. intros body EB. apply FC.
    + unfold gzip_body in EB. destruct (Nat.ltb _ _); [discriminate|]. eapply slice_bytes; eassumption.
    + intro h. destruct (every_correct h); exact I.
  - unfold fuzz_exec_gzip. destruct data as [|x data]; [exact I|]. apply FC; [exact HC|]. intro h. destruct (every_correct h); [exact I|].
    apply op_bind; [exact GB|]. intros body _. destruct (slice_eqb _ _ _); exact I.
Qed.
