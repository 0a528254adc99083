(** Proofs of C108. *)
From Verif Require Import Base M_bit M_lib M_circles M_gzip M_parse M_serialise M_rezippers M_dump M_text Spec Clients Clients_file Clients_wrong Clients_verdict
  L_bits L_ring L_P_file L_P_verdict.
From Coq Require Import ZArith ZifyBool ZifyNat ZifyN.
Ltac Zify.zify_post_hook ::= Z.div_mod_to_equations.
Local Open Scope N_scope.
Local Open Scope model_scope.

(** Codes that differ in literals only. *)
Definition alike (a b : Code) : Prop := match a, b with Literal _, Literal _ => True | Reference r, Reference s => r = s | _, _ => False end.

Lemma alike_refl l : Forall2 alike l l.
Proof. induction l as [|[x|r] l IH]; constructor; cbn; auto. Qed.
Lemma alike_lits : forall a b : list N, List.length a = List.length b -> Forall2 alike (map Literal a) (map Literal b).
Proof. induction a as [|x a IH]; intros [|y b] E; cbn in E; try discriminate; constructor; [exact I|apply IH; congruence]. Qed.
Lemma alike_codes : forall a b, map outline_of a = map outline_of b -> Forall2 alike (flat_map block_codes a) (flat_map block_codes b).
Proof.
  induction a as [|x a IH]; intros [|y b] E; cbn [map] in E; try discriminate; [constructor|].
  injection E as E1 E2. cbn [flat_map]. apply Forall2_app; [|now apply IH].
  destruct x, y; cbn [outline_of block_codes] in *; try discriminate.
  - injection E1 as E1. now apply alike_lits.
  - injection E1 as ->. apply alike_refl.
  - injection E1 as _ ->. apply alike_refl.
Qed.
Lemma lz_copy_len n d : forall h, List.length (lz_copy n d h) = (n + List.length h)%nat.
Proof. induction n as [|n IH]; intro h; cbn [lz_copy]; [reflexivity|]. rewrite IH, app_length. cbn. lia. Qed.
Lemma alike_decode w a b : Forall2 alike a b -> forall h h', List.length h = List.length h' ->
  match lz_decode w h a, lz_decode w h' b with Some x, Some y => List.length x = List.length y | None, None => True | _, _ => False end.
Proof.
  induction 1 as [|c d a b A _ IH]; intros h h' E; cbn [lz_decode]; [exact E|].
  destruct c as [x|r], d as [y|s]; cbn in A; try contradiction.
  - apply IH. rewrite !app_length. cbn. lia.
  - subst s. rewrite E. destruct ((1 <=? r_dist r) && (r_dist r <=? w) && (r_dist r <=? N.of_nat (List.length h'))); [|exact I]. apply IH. rewrite !lz_copy_len. lia.
Qed.

Lemma alike_decodes a b d1 a1 d2 a2 : Forall2 alike a b -> decodes a d1 a1 -> decodes b d2 a2 -> List.length d1 = List.length d2 /\ a1 = a2.
Proof.
  intros HA H1 H2. destruct H1 as [d1 E1|g r more d1 EC E1 B].
  - pose proof (alike_decode 32768 a b HA [] [] eq_refl) as X. unfold encodes in E1. cbn [app] in E1. rewrite E1 in X.
    destruct (lz_decode 32768 [] b) as [y|] eqn:EB; [|contradiction].
    destruct (C88_lemma_decodes_one b y true d2 a2 ltac:(constructor; exact EB) H2) as [<- <-]. auto.
  - subst a. apply Forall2_app_inv_l in HA. destruct HA as (g' & t & HG & HT & ->). inversion HT as [|c d u v A HR]; subst.
    destruct d as [z|s]; cbn in A; [contradiction|]. subst s.
    pose proof (alike_decode 32768 g g' HG [] [] eq_refl) as X. unfold encodes in E1. cbn [app] in E1. rewrite E1 in X.
    destruct (lz_decode 32768 [] g') as [y|] eqn:EB; [|contradiction].
    assert (D : decodes (g' ++ Reference r :: v) y false) by (eapply DC_far; [reflexivity|exact EB|rewrite <- X; exact B]).
    destruct (C88_lemma_decodes_one _ _ _ _ _ D H2) as [<- <-]. auto.
Qed.

Lemma C108_lemma_result : forall file file' e room, bytes_ok file -> bytes_ok file' -> dump_run (mkSource file e) = dump_run (mkSource file' e) ->
  exists o out out', cat_run (mkSource file e) (sink_with room) = (o, out) /\ cat_run (mkSource file' e) (sink_with room) = (o, out')
    /\ List.length (written out) = List.length (written out')
    /\ ((forall n, In (DStored n) (fst (dump_run (mkSource file e))) -> n = 0%nat) -> written out = written out').
Proof.
  intros f1 f2 e room B1 B2 ED.
  destruct (C88_lemma_always f1 B1) as (b1 & n1 & F1). destruct (C88_lemma_always f2 B2) as (b2 & n2 & F2).
  destruct (C88_lemma_decodes (flat_map block_codes b1)) as (d1 & a1 & D1). destruct (C88_lemma_decodes (flat_map block_codes b2)) as (d2 & a2 & D2).
  rewrite (C88_lemma_dump _ e _ _ B1 F1), (C88_lemma_dump _ e _ _ B2 F2) in ED. injection ED as EL ER.
  destruct (C88_lemma_cat _ e room _ _ _ _ B1 F1 D1) as (o1 & C1 & W1). destruct (C88_lemma_cat _ e room _ _ _ _ B2 F2 D2) as (o2 & C2 & W2).
  apply C57_lemma_complete in EL as EO. destruct (alike_decodes _ _ _ _ _ _ (alike_codes _ _ EO) D1 D2) as [LD EA]. subst a2.
  eexists _, o1, o2. split; [exact C1|]. split; [|split].
  - rewrite C2, ER. unfold fits. rewrite LD. reflexivity.
  - rewrite W1, W2. unfold taken. destruct room; [rewrite !firstn_length; lia|exact LD].
  - rewrite (C88_lemma_dump _ e _ _ B1 F1). cbn [fst]. intro NS. rewrite W1, W2. f_equal.
    assert (EC : flat_map block_codes b1 = flat_map block_codes b2).
    { clear - EO NS. revert b2 EO NS. generalize 0%nat at 1. induction b1 as [|x a IH]; intros k [|y b] E NS; cbn [map] in E; try discriminate; [reflexivity|].
      injection E as E1 E2. cbn [flat_map]. rewrite (IH (S k) b E2).
      2:{ intros n I. apply NS. cbn [listing]. apply in_or_app. right. apply in_or_app. right. exact I. }
      f_equal. destruct x as [u|u|t u], y as [v|v|t' v]; cbn [outline_of block_codes] in *; try discriminate; try congruence.
      injection E1 as E1. assert (Z : List.length u = 0%nat) by (apply NS; cbn [listing app]; right; left; reflexivity).
      destruct u; [destruct v; [reflexivity|discriminate]|discriminate]. }
    rewrite EC in D1. exact (proj1 (C88_lemma_decodes_one _ _ _ _ _ D1 D2)).
Qed.
