(** Lemmas: the choices at a gzip level, by gzip's table. *)
From Verif Require Import Base M_bit M_lib M_all_refs M_technique M_trace Spec Clients Spec_encoder Clients_encoder Clients_exact Clients_restore
  L_bits L_ring L_search L_P_search L_tech L_P_tech L_trace L_strace L_P_trace L_P_encoder L_P_exact.
From Coq Require Import ZArith ZifyBool ZifyNat ZifyN.
Ltac Zify.zify_post_hook ::= Z.div_mod_to_equations.
Local Open Scope N_scope.
Local Open Scope model_scope.

Lemma level_limit_spec level config : Config_gzip level = Ok config -> insert_only_below_length (cfg_wams config) = level_limit level.
Proof.
  intro EC. assert (HL : 1 <= level <= 9).
  { unfold Config_gzip in EC. destruct ((1 <=? level) && (level <=? 9)) eqn:X; [lia|discriminate]. }
  unfold level_limit. destruct (nth_error gzip_levels (N.to_nat (level - 1))) as [[[[good lazy_] nice_] chain_]|] eqn:EN.
  2: { exfalso. apply nth_error_None in EN. change (List.length gzip_levels) with 9%nat in EN. lia. }
  destruct (proj2 (C53_lemma level ltac:(lia)) _ _ _ _ (proj1 HL) EN) as (c' & EC' & _ & _ & _ & H4 & _). rewrite EC in EC'. injection EC' as <-. exact H4.
Qed.

Lemma level_choice_spec level config w runs pos codes : Config_gzip level = Ok config ->
  choice_of w config (match level_limit level with Some l => l | None => 65535 end) runs pos codes <-> level_choice w level runs pos codes.
Proof.
  intros EC. assert (HL : 1 <= level <= 9).
  { unfold Config_gzip in EC. destruct ((1 <=? level) && (level <=? 9)) eqn:X; [lia|discriminate]. }
  unfold level_choice, level_limit. destruct (nth_error gzip_levels (N.to_nat (level - 1))) as [[[[good lazy_] nice_] chain_]|] eqn:EN.
  2: { exfalso. apply nth_error_None in EN. change (List.length gzip_levels) with 9%nat in EN. lia. }
  destruct (proj2 (C53_lemma level ltac:(lia)) _ _ _ _ (proj1 HL) EN) as (c' & EC' & H1 & H2 & H3 & H4 & _). rewrite EC in EC'. injection EC' as <-.
  assert (H0 : cfg_lookahead config = LGreedy).
  { unfold Config_gzip in EC. destruct (_ && _); [|discriminate]. destruct (get_idx _ _); [|discriminate..]. injection EC as <-. reflexivity. }
  assert (ES : mkSearch (N.to_nat (if level <? 4 then lazy_ else 65535)) (N.to_nat chain_) nice_ (4 <=? level)
    = plain_search config (match (if level <? 4 then Some lazy_ else None) with Some l => l | None => 65535 end)).
  { unfold plain_search. rewrite H1, H2. f_equal.
    - destruct (level <? 4); reflexivity.
    - rewrite <- H3. now rewrite Nnat.Nat2N.id.
    - destruct (N.ltb_spec level 4), (N.leb_spec 4 level); cbn [refuses_far_threes]; try reflexivity; lia. }
  unfold choice_of, finds. rewrite H0, <- ES. split.
  - intro H. exists good, lazy_, nice_, chain_. split; [reflexivity|exact H].
  - intros (g & l & n & k & EN' & H). injection EN' as <- <- <- <-. exact H.
Qed.

Lemma traced_same w limit (c1 c2 : list (nat * N) -> nat -> list Code -> Prop) : (forall runs pos gs, c1 runs pos gs -> c2 runs pos gs) ->
  forall runs pos codes hints, traced w limit c1 runs pos codes hints -> traced w limit c2 runs pos codes hints.
Proof.
  intros H runs pos codes hints. induction 1; [now apply tr_end|apply tr_right; auto|eapply tr_wrong; eauto].
Qed.

Lemma level_traced level config p d refs codes hints : Config_gzip level = Ok config -> bytes_ok p -> bytes_ok d ->
  with_sixteen p d (match insert_only_below_length (cfg_wams config) with Some l => l | None => 65535 end) = Ok refs ->
  (trace codes (mkTechnique config refs) = Ok hints
   <-> traced (p ++ d) (level_limit level) (level_choice (p ++ d) level) [] (List.length p) codes hints).
Proof.
  intros EC B1 B2 EW. rewrite (C91_lemma_trace config p d _ refs codes hints B1 B2 EW). rewrite (level_limit_spec _ _ EC).
  split; apply traced_same; intros runs pos gs; apply (level_choice_spec level config _ _ _ _ EC).
Qed.

Lemma found_level_iff level config p d refs codes hints : Config_gzip level = Ok config -> bytes_ok p -> bytes_ok d ->
  with_sixteen p d (match insert_only_below_length (cfg_wams config) with Some l => l | None => 65535 end) = Ok refs ->
  trace codes (mkTechnique config refs) = Ok hints -> (found_at_level level p d codes <-> literals_found p d hints codes).
Proof.
  intros EC B1 B2 EW ET. split.
  - intro F. apply F. now apply (level_traced level config p d refs).
  - intros F h T. apply (level_traced level config p d refs codes h EC B1 B2 EW) in T. rewrite ET in T. injection T as <-. exact F.
Qed.

Lemma found_by level p d codes hints : bytes_ok p -> bytes_ok d ->
  (c <-? Config_gzip level ;; refs <-? with_sixteen p d (match insert_only_below_length (cfg_wams c) with Some l => l | None => 65535 end) ;;
   trace codes (mkTechnique c refs)) = Ok hints ->
  literals_found p d hints codes -> found_at_level level p d codes.
Proof.
  intros B1 B2 E F. apply obind_ok in E. destruct E as (c & EC & E). apply obind_ok in E. destruct E as (refs & EW & ET).
  now apply (found_level_iff level c p d refs codes hints EC B1 B2 EW ET).
Qed.
