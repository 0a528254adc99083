(** Proofs of the properties in P_gzip.v *)
From Verif Require Import Base M_gzip Spec Clients L_bits L_gzip.
From Coq Require Import ZArith ZifyBool ZifyNat ZifyN.
Local Open Scope N_scope.

Lemma C30_lemma : forall bytes e h s, discard_header (mkSource bytes e) = (Ok h, s) ->
  exists tail, s = mkSource tail e /\ bytes = h ++ tail
    /\ forall other e', discard_header (mkSource (h ++ other) e') = (Ok h, mkSource other e').
Proof.
  intros bytes e h s E. assert (M := mono_header bytes e). rewrite E in M. destruct M as (u & tail & -> & _ & _).
  apply gspec_header in E. destruct E as (used & -> & -> & HR). exists tail. split; [reflexivity|]. split; [reflexivity|].
  intros other e'. apply gspec_header. eauto.
Qed.

Lemma C31_lemma : forall bytes e h tail, bytes_ok bytes ->
  discard_header (mkSource bytes e) = (Ok h, mkSource tail e) <-> bytes = h ++ tail /\ gzip_header h.
Proof.
  intros bytes e h tail HB. rewrite (gspec_header bytes e h tail). split.
  - intros (u & -> & -> & HR). split; [reflexivity|]. apply header_same; [|assumption]. unfold bytes_ok in HB. now rewrite Forall_app in HB.
  - intros (-> & HG). exists h. split; [reflexivity|]. split; [reflexivity|]. apply header_same; [|assumption].
    unfold bytes_ok in HB. now rewrite Forall_app in HB.
Qed.

Lemma C31_lemma_total : forall bytes e, returns (fst (discard_header (mkSource bytes e))).
Proof.
  intros bytes e. assert (M := mono_header bytes e). destruct (discard_header (mkSource bytes e)) as [[|[]| |] s]; cbn; auto.
Qed.

Lemma C31_lemma_cut : forall h cut e, bytes_ok h -> gzip_header h -> (cut < List.length h)%nat ->
  discard_header (mkSource (firstn cut h) e) = (Err (EIo e), mkSource [] e).
Proof.
  intros h cut e HB HG HC. assert (M := mono_header (firstn cut h) e).
  assert (W : discard_header (mkSource (firstn cut h ++ skipn cut h) e) = (Ok h, mkSource [] e)).
  { rewrite firstn_skipn. apply C31_lemma; [assumption|]. now rewrite app_nil_r. }
  destruct (discard_header (mkSource (firstn cut h) e)) as [[a|[x|t|]| |] s].
  - destruct M as (u & tl & -> & EU & HM). rewrite HM in W. injection W as _ W. destruct tl; [|discriminate]. cbn [app] in W.
    assert (L : List.length (skipn cut h) = 0%nat) by now rewrite W. rewrite skipn_length in L. lia.
  - destruct M as [-> ->]. reflexivity.
  - specialize (M (skipn cut h) e). rewrite W in M. discriminate.
  - contradiction.
  - contradiction.
  - contradiction.
Qed.
