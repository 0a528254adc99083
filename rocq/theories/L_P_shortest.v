(** Proofs of C94: hints are stored in the fewest bytes. *)
From Verif Require Import Base M_bit M_lib M_all_refs M_technique M_trace Spec Clients L_bits L_trace L_strace L_P_trace.
From Coq Require Import ZArith ZifyBool ZifyNat ZifyN.
Ltac Zify.zify_post_hook ::= Z.div_mod_to_equations.
Local Open Scope N_scope.
Local Open Scope model_scope.

Lemma writes tr : exists bs, st_write tr = Ok bs.
Proof. destruct (write_spec (S (List.length tr)) tr ltac:(lia)) as (bs & E & _). eauto. Qed.

Lemma write_run_ok n l x y : (0 < n)%nat -> starts_correct l = false -> write_corrects (N.of_nat n) = Ok x -> st_write l = Ok y ->
  st_write (repeat Correct n ++ l) = Ok (x ++ y).
Proof.
  intros Hn HS EX EY. destruct n as [|n]; [lia|]. rewrite write_run by assumption. rewrite EX. cbn [obind]. now rewrite EY.
Qed.

(** One more record of corrects costs at least the two bytes saved by leaving it out. *)
Lemma run_cost k l a b : (1 <= k)%nat -> N.of_nat k <= 32767 -> st_write (repeat Correct k ++ l) = Ok a -> st_write l = Ok b ->
  (List.length a <= 2 + List.length b)%nat.
Proof.
  intros H1 H2 EA EB. destruct (split_corrects l) as (n & r & -> & HR). rewrite app_assoc, <- repeat_app in EA.
  destruct (writes r) as (y & EY).
  destruct (write_corrects_spec (N.of_nat (k + n)) ltac:(lia)) as (x & EX & _ & _ & LX).
  rewrite (write_run_ok (k + n) r x y ltac:(lia) HR EX EY) in EA. injection EA as <-.
  destruct n as [|n].
  - cbn [repeat app] in EB. rewrite EY in EB. injection EB as <-. rewrite app_length. assert ((N.of_nat (k + 0) + 32766) / 32767 <= 1) by lia. lia.
  - destruct (write_corrects_spec (N.of_nat (S n)) ltac:(lia)) as (x' & EX' & _ & _ & LX').
    rewrite (write_run_ok (S n) r x' y ltac:(lia) HR EX' EY) in EB. injection EB as <-. rewrite !app_length.
    assert ((N.of_nat (k + S n) + 32766) / 32767 <= 1 + (N.of_nat (S n) + 32766) / 32767) by lia. lia.
Qed.

Lemma shortest other hints : trace_bytes other hints -> bytes_ok other -> forall bytes, st_write hints = Ok bytes -> (List.length bytes <= List.length other)%nat.
Proof.
  induction 1 as [|bs hints HT IH|lo hi len bs hints HV HT IH|lo hi bs hints HV HT IH]; intros HB bytes E.
  - injection E as <-. cbn. lia.
  - inversion HB as [|? ? _ HB1]; subst. inversion HB1 as [|? ? _ HB2]; subst. rewrite write_lit in E. destruct (writes hints) as (w & EW). rewrite EW in E. injection E as <-.
    specialize (IH HB2 w EW). unfold le16. cbn [app List.length]. lia.
  - inversion HB as [|? ? _ HB1]; subst. inversion HB1 as [|? ? _ HB2]; subst. inversion HB2 as [|? ? _ HB3]; subst. rewrite write_ref in E. destruct (writes hints) as (w & EW). rewrite EW in E. injection E as <-.
    specialize (IH HB3 w EW). unfold le16. cbn [app List.length]. lia.
  - inversion HB as [|? ? L0 HB1]; subst. inversion HB1 as [|? ? L1 HB2]; subst. unfold is_byte in *. destruct (writes hints) as (w & EW). specialize (IH HB2 w EW).
    assert (X := run_cost (N.to_nat (lo + 256 * hi - 32768)) hints bytes w ltac:(lia) ltac:(lia) E EW). cbn [List.length]. lia.
Qed.

Lemma C94_lemma : forall hints bytes other, st_write hints = Ok bytes -> bytes_ok other ->
  fst (st_read (mkSource other UnexpectedEof)) = Ok hints -> (List.length bytes <= List.length other)%nat.
Proof.
  intros hints bytes other E HB ER. destruct (C44_lemma other HB) as (whole & tail & h & EO & HT & [[_ ER']|(lo & hi & _ & _ & ER')]); rewrite ER in ER'; [|discriminate ER'].
  injection ER' as <-. subst other. apply Forall_app in HB. rewrite app_length. assert (X := shortest whole hints HT (proj1 HB) bytes E). lia.
Qed.

(** ** The only shortest form *)
Definition short_runs (hints : list Trace) : Prop := forall a n b, hints = a ++ repeat Correct n ++ b -> N.of_nat n <= 32767.

Lemma short_tail x hints : short_runs (x ++ hints) -> short_runs hints.
Proof. intros H a n b ->. apply (H (x ++ a) n b). now rewrite app_assoc. Qed.

Lemma write_corrects_small k : (1 <= k)%nat -> N.of_nat k <= 32767 -> write_corrects (N.of_nat k) = Ok (le16 (32768 + N.of_nat k)).
Proof.
  intros H1 H2. unfold write_corrects. change max_representable with 32767. cbn [write_corrects_loop]. change max_representable with 32767.
  destruct (N.ltb_spec 32767 (N.of_nat k)); [lia|]. cbn [obind]. destruct (N.eqb_spec (N.of_nat k) 0); [lia|]. destruct (N.ltb_spec 65535 (N.of_nat k)); [lia|].
  change representation_offset with 32768. destruct (N.ltb_spec 65535 (32768 + N.of_nat k)); [lia|]. reflexivity.
Qed.

Lemma le16_pair lo hi : lo < 256 -> hi < 256 -> le16 (lo + 256 * hi) = [lo; hi].
Proof. intros H0 H1. unfold le16. f_equal; [lia|]. f_equal. lia. Qed.

Lemma only_shortest other hints : trace_bytes other hints -> bytes_ok other -> short_runs hints ->
  forall bytes, st_write hints = Ok bytes -> List.length other = List.length bytes -> other = bytes.
Proof.
  induction 1 as [|bs hints HT IH|lo hi len bs hints HV HT IH|lo hi bs hints HV HT IH]; intros HB HS bytes E EL.
  - now injection E as <-.
  - inversion HB as [|? ? _ HB1]; subst. inversion HB1 as [|? ? _ HB2]; subst. rewrite write_lit in E. destruct (writes hints) as (w & EW). rewrite EW in E. cbn [obind] in E.
    assert (E' : le16 0 ++ w = bytes) by congruence. subst bytes. change (le16 0) with [0; 0] in *. cbn [app List.length] in *. do 2 f_equal. apply IH; auto. { now apply (short_tail [ActuallyLiteral]). } lia.
  - inversion HB as [|? ? L0 HB1]; subst. inversion HB1 as [|? ? L1 HB2]; subst. inversion HB2 as [|? ? L2 HB3]; subst. unfold is_byte in *.
    rewrite write_ref in E. destruct (writes hints) as (w & EW). rewrite EW in E. cbn [obind] in E. unfold r_run in E. cbn [r_dist r_run_minus_3] in E. rewrite le16_pair in E by assumption.
    replace ((len + 3 - 3) mod 256) with len in E by lia. assert (E' : [lo; hi] ++ [len] ++ w = bytes) by congruence. subst bytes. cbn [app List.length] in *. do 3 f_equal. apply IH; auto. { now apply (short_tail [Actually (mkRef (lo + 256 * hi) len)]). } lia.
  - inversion HB as [|? ? L0 HB1]; subst. inversion HB1 as [|? ? L1 HB2]; subst. unfold is_byte in *.
    set (k := N.to_nat (lo + 256 * hi - 32768)) in *. assert (HK : (1 <= k)%nat /\ N.of_nat k <= 32767) by lia.
    destruct (split_corrects hints) as (n & r & EH & HR). destruct (writes r) as (y & EY).
    assert (LH : (List.length y <= List.length bs)%nat).
    { destruct n as [|n].
      - cbn [repeat app] in EH. subst hints. exact (shortest bs r HT HB2 y EY).
      - subst hints. destruct (writes (repeat Correct (S n) ++ r)) as (w & EW). assert (X := shortest bs _ HT HB2 w EW).
        destruct (write_corrects_spec (N.of_nat (S n)) ltac:(lia)) as (x' & EX' & _). rewrite (write_run_ok (S n) r x' y ltac:(lia) HR EX' EY) in EW. injection EW as <-. rewrite app_length in X. lia. }
    assert (HKN : N.of_nat (k + n) <= 32767).
    { apply (HS [] (k + n)%nat r). subst hints. cbn [app]. now rewrite app_assoc, <- repeat_app. }
    assert (ER : st_write (repeat Correct k ++ hints) = Ok (le16 (32768 + N.of_nat (k + n)) ++ y)).
    { subst hints. rewrite app_assoc, <- repeat_app. apply write_run_ok; [lia|exact HR|apply write_corrects_small; lia|exact EY]. }
    rewrite ER in E. assert (E' : le16 (32768 + N.of_nat (k + n)) ++ y = bytes) by congruence. subst bytes.
    destruct n as [|n].
    + cbn [repeat app] in EH. subst hints. rewrite Nat.add_0_r. replace (32768 + N.of_nat k) with (lo + 256 * hi) by lia. rewrite le16_pair in * by assumption. cbn [app List.length].
      do 2 f_equal. apply IH; auto; [now apply (short_tail (repeat Correct k))|]. rewrite app_length in EL. unfold le16 in EL. cbn [List.length] in EL. lia.
    + exfalso. subst hints. destruct (writes (repeat Correct (S n) ++ r)) as (w & EW). assert (X := shortest bs _ HT HB2 w EW).
      rewrite (write_run_ok (S n) r _ y ltac:(lia) HR (write_corrects_small (S n) ltac:(lia) ltac:(lia)) EY) in EW. injection EW as <-.
      rewrite !app_length in *. unfold le16 in *. cbn [List.length] in *. lia.
Qed.

Lemma C94_lemma_only : forall hints bytes other, st_write hints = Ok bytes -> bytes_ok other ->
  fst (st_read (mkSource other UnexpectedEof)) = Ok hints -> List.length other = List.length bytes ->
  (forall before n after, hints = before ++ repeat Correct n ++ after -> N.of_nat n <= 32767) -> other = bytes.
Proof.
  intros hints bytes other E HB ER EL HS. destruct (C44_lemma other HB) as (whole & tail & h & EO & HT & [[_ ER']|(lo & hi & _ & _ & ER')]); rewrite ER in ER'; [|discriminate ER'].
  injection ER' as <-. subst other. apply Forall_app in HB. rewrite app_length in EL. assert (X := shortest whole hints HT (proj1 HB) bytes E).
  assert (ET : tail = []) by (destruct tail; [reflexivity|cbn [List.length] in EL; lia]). subst tail. rewrite app_nil_r in *. cbn [List.length] in EL.
  apply (only_shortest whole hints HT (proj1 HB) HS bytes E). lia.
Qed.

(** ** The bytes *)
Lemma corrects_loop_exact last q : 1 <= last <= 32767 -> forall fuel, (q < fuel)%nat ->
  write_corrects_loop fuel (N.of_nat q * 32767 + last) = Ok (List.concat (repeat [255; 255] q), last).
Proof.
  intro H. induction q as [|q IH]; intros [|fuel] HF; try lia; cbn [write_corrects_loop]; change max_representable with 32767.
  - destruct (N.ltb_spec 32767 (N.of_nat 0 * 32767 + last)); [lia|]. reflexivity.
  - destruct (N.ltb_spec 32767 (N.of_nat (S q) * 32767 + last)); [|lia]. replace (N.of_nat (S q) * 32767 + last - 32767) with (N.of_nat q * 32767 + last) by lia.
    rewrite IH by lia. cbn [obind repeat List.concat]. reflexivity.
Qed.

Lemma corrects_exact q last : 1 <= last <= 32767 ->
  write_corrects (q * 32767 + last) = Ok (List.concat (repeat [255; 255] (N.to_nat q)) ++ [last mod 256; 128 + last / 256]).
Proof.
  intro H. unfold write_corrects. change max_representable with 32767. rewrite <- (N2Nat.id q) at 2. rewrite (corrects_loop_exact last (N.to_nat q) H) by lia. cbn [obind].
  destruct (N.eqb_spec last 0); [lia|]. destruct (N.ltb_spec 65535 last); [lia|]. change representation_offset with 32768. destruct (N.ltb_spec 65535 (32768 + last)); [lia|].
  do 2 f_equal. unfold le16. f_equal; [lia|]. f_equal. lia.
Qed.

Lemma C94_lemma_bytes : forall hints bytes, st_write hints = Ok bytes ->
  st_write (ActuallyLiteral :: hints) = Ok ([0; 0] ++ bytes)
  /\ (forall r, ref_ok r -> st_write (Actually r :: hints) = Ok ([r_dist r mod 256; r_dist r / 256; ref_len r - 3] ++ bytes))
  /\ (forall q last, 1 <= last <= 32767 -> hd_error hints <> Some Correct ->
       st_write (repeat Correct (N.to_nat (q * 32767 + last)) ++ hints)
       = Ok (List.concat (repeat [255; 255] (N.to_nat q)) ++ [last mod 256; 128 + last / 256] ++ bytes)).
Proof.
  intros hints bytes E. split; [rewrite write_lit, E; reflexivity|]. split.
  - intros r R. rewrite write_ref, E. cbn [obind]. unfold ref_ok in R. unfold le16. cbn [app]. do 4 f_equal. unfold ref_len, r_run. destruct r as [d m]. cbn [r_dist r_run_minus_3] in *. rewrite N.mod_small; lia.
  - intros q last H HN. rewrite app_assoc. apply write_run_ok; [lia| |rewrite N2Nat.id; now apply corrects_exact|exact E].
    destruct hints as [|[] ?]; try reflexivity. now elim HN.
Qed.
