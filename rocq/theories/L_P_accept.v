(** Proof of C65, with a preroll. *)
From Verif Require Import Base M_bit M_lib M_all_refs M_technique M_trace Spec Clients Clients_restore Clients_hints
  L_P_e2e L_search L_ring L_tech L_trace L_strace L_P_trace L_restore L_P_tech L_P_encoder L_P_encoder2 L_P_fuzz L_P_hints L_level.
From Coq Require Import ZArith ZifyBool ZifyNat ZifyN.
Ltac Zify.zify_post_hook ::= Z.div_mod_to_equations.
Local Open Scope N_scope.
Local Open Scope model_scope.

Lemma covers_traced w t : refs_of w (t_refs t) ->
  (forall runs pos, (pos < List.length w)%nat -> exists code, sc_codes t (mkScanner runs pos) = Ok [code]) ->
  forall fuel s codes, covers (List.length w) (sc_pos s) codes -> (List.length w - sc_pos s < fuel)%nat ->
  exists hints, trace_loop fuel t s codes = Ok hints /\ List.length hints = List.length codes
    /\ restore_loop fuel t s hints = opt_result (looked_up (ar_data (t_refs t)) (sc_pos s) hints codes)
    /\ forall r, In (Actually r) hints -> In (Reference r) codes.
Proof.
  intros R G. induction fuel as [|fuel IH]; intros s codes HF HL; [lia|]. cbn [trace_loop restore_loop].
  rewrite (more_data_spec w) by assumption. destruct codes as [|c codes]; cbn [covers] in HF.
  - replace (Nat.ltb (sc_pos s) (List.length w)) with false by (symmetry; apply Nat.ltb_ge; exact HF). exists []. repeat split. intros r [].
  - destruct HF as [Hp HF]. replace (Nat.ltb (sc_pos s) (List.length w)) with true by (symmetry; apply Nat.ltb_lt; exact Hp).
    assert (PS := code_bytes_pos c).
    assert (PF : sc_pos (feedback t s c) = (sc_pos s + code_bytes c)%nat) by (rewrite feedback_pos, code_bytes_emitted; reflexivity).
    destruct (IH (feedback t s c) codes ltac:(now rewrite PF) ltac:(rewrite PF; lia)) as (hints & ET & EL & ER & HI). rewrite PF in ER.
    destruct s as [runs pos]. cbn [sc_pos] in *. destruct (G runs pos Hp) as (g & EG). rewrite EG. cbn [obind shared_prefix].
    destruct (Code_eqb c g) eqn:EC.
    + apply Code_eqb_spec in EC. subst g. cbn [fold_left map List.length Nat.eqb]. rewrite ET. cbn [obind app]. exists (Correct :: hints).
      split; [reflexivity|]. split; [cbn [List.length]; congruence|]. cbn [restore_guesses obind]. rewrite ER. cbn [looked_up].
      split; [destruct (looked_up _ _ hints codes); reflexivity|]. intros r [X|X]; [discriminate|]. right. auto.
    + cbn [fold_left map List.length Nat.eqb app]. rewrite ET. cbn [obind]. exists (hint_of c :: hints). split; [reflexivity|]. split; [cbn [List.length]; congruence|].
      cbn [restore_guesses]. destruct c as [b|r]; cbn [hint_of looked_up].
      * unfold byte_at, get_idx. cbn [sc_pos]. destruct (nth_error (ar_data (t_refs t)) pos) as [b'|]; [|split; [reflexivity|intros r [X|X]; [discriminate|right; auto]]].
        cbn [obind]. rewrite (feedback_literal t _ b' b), ER. split; [destruct (looked_up _ _ hints codes); reflexivity|]. intros r [X|X]; [discriminate|]. right. auto.
      * cbn [obind]. rewrite ER. split; [destruct (looked_up _ _ hints codes); reflexivity|]. intros r' [X|X]; [injection X as <-; now left|]. right. auto.
Qed.

Lemma follows_covers p d pos hints codes stop : follows p d pos hints codes stop -> (List.length (p ++ d) <= stop)%nat -> covers (List.length (p ++ d)) pos codes.
Proof. induction 1; cbn [covers]; auto. Qed.

Lemma C65_lemma_preroll : forall level preroll data codes, 1 <= level <= 9 -> bytes_ok preroll -> bytes_ok data -> Forall code_ok codes ->
  ((exists hints, try_gzip level preroll data codes = Ok hints)
   <-> covers (List.length (preroll ++ data)) (List.length preroll) codes /\ found_at_level level preroll data codes).
Proof.
  intros level preroll data codes HL BP BD HC.
  destruct (gzip_levels_config level HL) as (c & EC).
  set (limit := match insert_only_below_length (cfg_wams c) with Some l => l | None => 65535 end).
  destruct (with_sixteen_ok preroll data limit) as (refs & EW & _ & _ & _ & HD).
  destruct (technique_of c _ _ _ _ EW) as (R & EP & EL & EPre).
  assert (TR : covers (List.length (preroll ++ data)) (List.length preroll) codes ->
    exists hints, trace codes (mkTechnique c refs) = Ok hints /\ Forall hint_ok hints
      /\ (restore hints (mkTechnique c refs) = Ok codes <-> literals_found preroll data hints codes)).
  { intro CV. destruct (covers_traced _ (mkTechnique c refs) R) with (fuel := S (sc_data_len (mkTechnique c refs))) (s := scanner (mkTechnique c refs)) (codes := codes)
      as (hints & ET & ELn & ER & HI).
    - intros runs pos Hp. exact (C61_lemma_greedy level c preroll data limit refs runs pos EC EW Hp).
    - now rewrite EP.
    - rewrite EP, EL. lia.
    - exists hints. split; [exact ET|]. split; [exact (hints_ok_of_codes _ _ HC HI)|]. unfold restore. rewrite ER. cbn [t_refs]. rewrite HD, EP.
      assert (LS := looked_up_same data (List.length preroll) hints codes (List.length preroll) ELn (trace_literal _ _ _ _ _ ET) eq_refl).
      unfold literals_found. rewrite <- LS. destruct (looked_up data (List.length preroll) hints codes) as [o|]; cbn [opt_result]; split; congruence. }
  unfold try_gzip, tracer_try. rewrite EC. cbn [obind]. fold limit. rewrite EW. cbn [obind]. split.
  - intros (hints & E). apply obind_ok in E. destruct E as (hs & EV & E). unfold validate in EV. apply obind_ok in EV. destruct EV as (hs' & ET & EV).
    apply obind_ok in EV. destruct EV as (codes' & ER & EV). destruct (slice_eqb Code_eqb codes codes') eqn:ES; [|discriminate].
    apply slice_eqb_true in ES; [|intros a b; apply Code_eqb_spec]. subst codes'.
    destruct (proj1 (C81_lemma c preroll data limit refs hs' BP BD EW) codes ER) as (used & rest & stop & EH & F & LS).
    assert (CV := follows_covers _ _ _ _ _ _ F LS). split; [exact CV|].
    destruct (TR CV) as (hints' & ET' & _ & FI). rewrite ET in ET'. injection ET' as <-.
    apply (found_level_iff level c preroll data refs codes hs' EC BP BD EW ET). now apply FI.
  - intros [CV FO]. destruct (TR CV) as (hints & ET & HO & FI). exists hints. unfold validate. rewrite ET. cbn [obind].
    rewrite (proj2 FI (proj1 (found_level_iff level c preroll data refs codes hints EC BP BD EW ET) FO)). cbn [obind]. rewrite slice_eqb_refl by apply code_eqb_refl. cbn [obind].
    destruct (C43_lemma hints HO) as (bs & _ & _ & EV). rewrite EV. reflexivity.
Qed.
