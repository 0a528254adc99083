(** Lemmas: serialised traces. *)
From Verif Require Import Base M_bit M_lib M_all_refs M_technique M_trace Spec Clients L_bits L_trace.
From Coq Require Import ZArith ZifyBool ZifyNat ZifyN.
Ltac Zify.zify_post_hook ::= Z.div_mod_to_equations.
Local Open Scope N_scope.
Local Open Scope model_scope.

(** ** Reading *)
Definition prepend (hints : list Trace) (r : outcome (list Trace) * source) : outcome (list Trace) * source :=
  match r with
  | (Ok more, s) => (Ok (hints ++ more), s)
  | (Err e, s) => (Err e, s)
  | (Panic m, s) => (Panic m, s)
  | (Diverge, s) => (Diverge, s)
  end.

Lemma read_step fuel lo hi bs k :
  read_loop (S fuel) (mkSource (lo :: hi :: bs) k) =
    if 0 =? lo + 256 * hi then prepend [ActuallyLiteral] (read_loop fuel (mkSource bs k))
    else if lo + 256 * hi <=? 32768 then
      match bs with
      | [] => (Err (EIo k), mkSource [] k)
      | len :: bs' =>
          match Ref_new (lo + 256 * hi) (len + 3) with
          | Ok r => prepend [Actually r] (read_loop fuel (mkSource bs' k))
          | Err e => (Err e, mkSource bs' k)
          | Panic m => (Panic m, mkSource bs' k)
          | Diverge => (Diverge, mkSource bs' k)
          end
      end
    else prepend (repeat Correct (N.to_nat (lo + 256 * hi - 32768))) (read_loop fuel (mkSource bs k)).
Proof.
  cbn [read_loop]. unfold read_exact at 1. cbn [rest at_end List.length Nat.leb firstn skipn nth].
  destruct (0 =? lo + 256 * hi).
  - unfold bind, ret. destruct (read_loop fuel (mkSource bs k)) as [[ | | | ] s]; reflexivity.
  - destruct (lo + 256 * hi <=? 32768).
    + destruct bs as [|len bs]; [reflexivity|]. unfold bind at 1. unfold read_exact. cbn [rest at_end List.length Nat.leb firstn skipn nth].
      unfold bind, lift, ret. destruct (Ref_new _ _); try reflexivity.
    + unfold bind, ret. destruct (read_loop fuel (mkSource bs k)) as [[ | | | ] s]; reflexivity.
Qed.

Lemma read_short fuel bs k : (List.length bs < 2)%nat ->
  read_loop (S fuel) (mkSource bs k) = (match k with UnexpectedEof => Ok [] | _ => Err (EIo k) end, mkSource [] k).
Proof.
  intro H. cbn [read_loop]. unfold read_exact. cbn [rest at_end]. destruct (Nat.leb_spec 2 (List.length bs)); [lia|]. destruct k; reflexivity.
Qed.

Lemma Ref_new_read d len : 1 <= d <= 32768 -> len < 256 -> Ref_new d (len + 3) = Ok (mkRef d len).
Proof.
  intros Hd Hl. unfold Ref_new. destruct (N.leb_spec 3 (len + 3)); [|lia]. destruct (N.leb_spec (len + 3) 258); [|lia].
  destruct (N.leb_spec 1 d); [|lia]. destruct (N.leb_spec d 32768); [|lia]. do 2 f_equal. rewrite N.mod_small; lia.
Qed.

Lemma prepend_app a b r : prepend (a ++ b) r = prepend a (prepend b r).
Proof. destruct r as [[ | | | ] s]; cbn [prepend]; try reflexivity. now rewrite app_assoc. Qed.

Lemma read_records good hints : trace_bytes good hints -> bytes_ok good -> forall tail k fuel, (List.length (good ++ tail) < fuel)%nat ->
  exists fuel', (List.length tail < fuel')%nat /\ read_loop fuel (mkSource (good ++ tail) k) = prepend hints (read_loop fuel' (mkSource tail k)).
Proof.
  induction 1 as [|bs hints HT IH|lo hi len bs hints HV HT IH|lo hi bs hints HV HT IH]; intros HB tail k fuel HF.
  - exists fuel. split; [exact HF|]. cbn [app]. destruct (read_loop fuel _) as [[ | | | ] s]; reflexivity.
  - destruct fuel as [|fuel]; [lia|]. cbn [app] in *. rewrite read_step. change (0 =? 0 + 256 * 0) with true. cbn match.
    inversion HB as [|? ? _ HB1]; subst. inversion HB1 as [|? ? _ HB2]; subst. cbn [List.length] in HF.
    destruct (IH HB2 tail k fuel) as (f' & HF' & E); [lia|]. exists f'. split; [assumption|]. rewrite E, <- prepend_app. reflexivity.
  - destruct fuel as [|fuel]; [lia|]. cbn [app] in *. rewrite read_step.
    inversion HB as [|? ? _ HB1]; subst. inversion HB1 as [|? ? _ HB2]; subst. inversion HB2 as [|? ? HL HB3]; subst. cbn [List.length] in HF.
    destruct (N.eqb_spec 0 (lo + 256 * hi)); [lia|]. destruct (N.leb_spec (lo + 256 * hi) 32768); [|lia]. rewrite Ref_new_read by (auto; lia).
    destruct (IH HB3 tail k fuel) as (f' & HF' & E); [lia|]. exists f'. split; [assumption|]. rewrite E, <- prepend_app. reflexivity.
  - destruct fuel as [|fuel]; [lia|]. cbn [app] in *. rewrite read_step.
    inversion HB as [|? ? _ HB1]; subst. inversion HB1 as [|? ? _ HB2]; subst. cbn [List.length] in HF.
    destruct (N.eqb_spec 0 (lo + 256 * hi)); [lia|]. destruct (N.leb_spec (lo + 256 * hi) 32768); [lia|].
    destruct (IH HB2 tail k fuel) as (f' & HF' & E); [lia|]. exists f'. split; [assumption|]. now rewrite E, <- prepend_app.
Qed.

(** What is left over after the complete records. *)
Definition leftover (tail : list N) : Prop :=
  (List.length tail < 2)%nat \/ exists lo hi, tail = [lo; hi] /\ 1 <= lo + 256 * hi <= 32768.

Lemma parse_records n : forall bs, (List.length bs < n)%nat -> bytes_ok bs ->
  exists good tail hints, bs = good ++ tail /\ trace_bytes good hints /\ leftover tail.
Proof.
  induction n as [|n IH]; intros bs HL HB; [lia|]. destruct bs as [|lo [|hi bs]].
  - exists [], [], []. repeat split; try constructor. cbn. lia.
  - exists [], [lo], []. repeat split; try constructor. cbn. lia.
  - inversion HB as [|? ? H0 HB1]; subst. inversion HB1 as [|? ? H1 HB2]; subst. cbn [List.length] in HL. unfold is_byte in *.
    destruct (N.eqb_spec 0 (lo + 256 * hi)) as [E0|E0].
    + assert (lo = 0) as -> by lia. assert (hi = 0) as -> by lia. destruct (IH bs ltac:(lia) HB2) as (g & t & h & -> & HT & HO).
      exists (0 :: 0 :: g), t, (ActuallyLiteral :: h). split; [reflexivity|]. split; [now constructor|assumption].
    + destruct (N.leb_spec (lo + 256 * hi) 32768).
      * destruct bs as [|len bs].
        -- exists [], [lo; hi], []. split; [reflexivity|]. split; [constructor|]. right. exists lo, hi. split; [reflexivity|lia].
        -- inversion HB2 as [|? ? H2 HB3]; subst. cbn [List.length] in HL. destruct (IH bs ltac:(lia) HB3) as (g & t & h & -> & HT & HO).
           exists (lo :: hi :: len :: g), t, (Actually (mkRef (lo + 256 * hi) len) :: h). split; [reflexivity|]. split; [|assumption]. constructor; [lia|assumption].
      * destruct (IH bs ltac:(lia) HB2) as (g & t & h & -> & HT & HO).
        exists (lo :: hi :: g), t, (repeat Correct (N.to_nat (lo + 256 * hi - 32768)) ++ h). split; [reflexivity|]. split; [|assumption]. constructor; [lia|assumption].
Qed.

Lemma read_spec good tail hints k : trace_bytes good hints -> bytes_ok good ->
  ((List.length tail < 2)%nat -> fst (st_read (mkSource (good ++ tail) k)) = match k with UnexpectedEof => Ok hints | _ => Err (EIo k) end)
  /\ (forall lo hi, tail = [lo; hi] -> 1 <= lo + 256 * hi <= 32768 -> fst (st_read (mkSource (good ++ tail) k)) = Err (EIo k)).
Proof.
  intros HT HB. unfold st_read. cbn [rest]. destruct (read_records good hints HT HB tail k (S (List.length (good ++ tail)))) as (f & HF & E); [lia|].
  rewrite E. destruct f as [|f]; [lia|]. split.
  - intro HL. rewrite read_short by assumption. destruct k; cbn [prepend fst]; [now rewrite app_nil_r|reflexivity].
  - intros lo hi -> HV. rewrite read_step. destruct (N.eqb_spec 0 (lo + 256 * hi)); [lia|]. destruct (N.leb_spec (lo + 256 * hi) 32768); [|lia]. reflexivity.
Qed.

(** ** Writing *)
Definition starts_correct (l : list Trace) : bool := match l with Correct :: _ => true | _ => false end.

Lemma take_corrects_run n l : starts_correct l = false -> take_corrects (repeat Correct n ++ l) = (N.of_nat n, l).
Proof.
  intro H. induction n as [|n IH]; cbn [repeat app take_corrects].
  - destruct l as [|[]]; try reflexivity. discriminate.
  - rewrite IH. f_equal. lia.
Qed.

Lemma split_corrects l : exists n r, l = repeat Correct n ++ r /\ starts_correct r = false.
Proof.
  induction l as [|h l (n & r & -> & HR)]; [exists 0%nat, []; auto|]. destruct h; [exists (S n), r; auto| |]; (exists 0%nat; eexists; split; [reflexivity|reflexivity]).
Qed.

Lemma write_fuel f1 : forall f2 l, (List.length l < f1)%nat -> (List.length l < f2)%nat -> write_loop f1 l = write_loop f2 l.
Proof.
  induction f1 as [|f1 IH]; intros f2 l H1 H2; [lia|]. destruct f2 as [|f2]; [lia|]. cbn [write_loop].
  destruct l as [|[| |r] l]; cbn [List.length] in *.
  - reflexivity.
  - destruct (split_corrects l) as (n & r & -> & HR). change (Correct :: repeat Correct n ++ r) with (repeat Correct (S n) ++ r).
    rewrite take_corrects_run by assumption. rewrite app_length in *. rewrite (IH f2 r) by lia. reflexivity.
  - now rewrite (IH f2 l) by lia.
  - now rewrite (IH f2 l) by lia.
Qed.

Lemma write_nil : st_write [] = Ok [].
Proof. reflexivity. Qed.
Lemma write_lit l : st_write (ActuallyLiteral :: l) = obind (st_write l) (fun more => Ok (le16 0 ++ more)).
Proof. reflexivity. Qed.
Lemma write_ref r l : st_write (Actually r :: l) = obind (st_write l) (fun more => Ok (le16 (r_dist r) ++ [(r_run r - 3) mod 256] ++ more)).
Proof. reflexivity. Qed.
Lemma write_run n l : starts_correct l = false ->
  st_write (repeat Correct (S n) ++ l) = obind (write_corrects (N.of_nat (S n))) (fun a => obind (st_write l) (fun more => Ok (a ++ more))).
Proof.
  intro H. unfold st_write. cbn [repeat app write_loop].
  change (Correct :: repeat Correct n ++ l) with (repeat Correct (S n) ++ l). rewrite take_corrects_run by assumption.
  destruct (write_corrects _); cbn [obind]; try reflexivity. rewrite (write_fuel _ (S (List.length l))); [reflexivity| |lia].
  rewrite app_length. cbn [List.length repeat]. lia.
Qed.

Lemma le16_value v : v < 65536 -> v mod 256 + 256 * (v / 256) = v.
Proof. lia. Qed.
Lemma le16_bytes v : v < 65536 -> bytes_ok (le16 v).
Proof. intro H. unfold le16. repeat constructor; unfold is_byte; lia. Qed.

Lemma trace_bytes_app a x b y : trace_bytes a x -> trace_bytes b y -> trace_bytes (a ++ b) (x ++ y).
Proof.
  induction 1; intro HB; cbn [app]; [assumption|constructor; auto|constructor; auto|]. rewrite <- app_assoc. constructor; auto.
Qed.

Lemma corrects_bytes c : 1 <= c <= 32767 -> trace_bytes (le16 (32768 + c)) (repeat Correct (N.to_nat c)).
Proof.
  intro H. unfold le16. rewrite <- (app_nil_r (repeat _ _)).
  replace (N.to_nat c) with (N.to_nat ((32768 + c) mod 256 + 256 * ((32768 + c) / 256) - 32768)) by (rewrite le16_value; lia).
  constructor; [rewrite le16_value; lia|constructor].
Qed.

Lemma write_corrects_loop_spec fuel : forall c, 1 <= c -> (N.to_nat (c / 32767) < fuel)%nat ->
  exists l q d, write_corrects_loop fuel c = Ok (l, d) /\ 1 <= d <= 32767 /\ c = q * 32767 + d
    /\ trace_bytes l (repeat Correct (N.to_nat (q * 32767))) /\ bytes_ok l /\ N.of_nat (List.length l) = 2 * q.
Proof.
  induction fuel as [|fuel IH]; intros c H1 HF; [lia|]. cbn [write_corrects_loop]. change max_representable with 32767.
  destruct (N.ltb_spec 32767 c).
  - destruct (IH (c - 32767)) as (l & q & d & E & HD & HC & HT & HB & HL); [lia| |].
    { assert ((c - 32767) / 32767 + 1 = c / 32767) by lia. lia. }
    rewrite E. cbn [obind]. exists (le16 (representation_offset + 32767) ++ l), (q + 1), d. split; [reflexivity|]. split; [assumption|]. split; [lia|].
    split; [|split].
    + replace (N.to_nat ((q + 1) * 32767)) with (N.to_nat 32767 + N.to_nat (q * 32767))%nat by lia. rewrite repeat_app. apply trace_bytes_app; [|assumption].
      apply (corrects_bytes 32767). lia.
    + apply Forall_app. split; [apply le16_bytes; unfold representation_offset; lia|assumption].
    + rewrite app_length. unfold le16. cbn [List.length]. lia.
  - exists [], 0, c. split; [reflexivity|]. split; [lia|]. split; [lia|]. split; [constructor|]. split; [constructor|reflexivity].
Qed.

Lemma write_corrects_spec c : 1 <= c -> exists bs, write_corrects c = Ok bs /\ trace_bytes bs (repeat Correct (N.to_nat c))
  /\ bytes_ok bs /\ N.of_nat (List.length bs) = 2 * ((c + 32766) / 32767).
Proof.
  intro H. unfold write_corrects. change max_representable with 32767.
  destruct (write_corrects_loop_spec (S (N.to_nat (c / 32767))) c H ltac:(lia)) as (l & q & d & E & HD & HC & HT & HB & HL).
  rewrite E. cbn [obind]. destruct (N.eqb_spec d 0); [lia|]. destruct (N.ltb_spec 65535 d); [lia|]. change representation_offset with 32768.
  destruct (N.ltb_spec 65535 (32768 + d)); [lia|]. eexists. split; [reflexivity|]. split; [|split].
  - replace (N.to_nat c) with (N.to_nat (q * 32767) + N.to_nat d)%nat by lia. rewrite repeat_app. apply trace_bytes_app; [assumption|]. now apply corrects_bytes.
  - apply Forall_app. split; [assumption|apply le16_bytes; lia].
  - rewrite app_length. unfold le16. cbn [List.length]. assert ((c + 32766) / 32767 = q + 1) by (subst c; clear - HD; lia). lia.
Qed.

Lemma write_spec n : forall tr, (List.length tr < n)%nat -> exists bs, st_write tr = Ok bs
  /\ (Forall hint_ok tr -> trace_bytes bs tr /\ bytes_ok bs) /\ (List.length bs <= 3 * List.length tr)%nat.
Proof.
  induction n as [|n IH]; intros tr HL; [lia|]. destruct (split_corrects tr) as ([|k] & r & -> & HR).
  - cbn [repeat app] in *. destruct r as [|[| |r] l]; [|discriminate| |]; cbn [List.length] in *.
    + exists []. split; [reflexivity|]. split; [split; constructor|cbn; lia].
    + destruct (IH l ltac:(lia)) as (bs & E & HT & HS). rewrite write_lit, E. cbn [obind]. eexists. split; [reflexivity|]. split.
      * intro HO. inversion HO as [|? ? HO1 HO2]; subst. destruct (HT HO2) as [HT1 HT2]. split; [now constructor|].
        constructor; [unfold is_byte; lia|]. constructor; [unfold is_byte; lia|]. assumption.
      * unfold le16. cbn [List.length app]. lia.
    + destruct (IH l ltac:(lia)) as (bs & E & HT & HS). rewrite write_ref, E. cbn [obind]. eexists. split; [reflexivity|]. split.
      * intro HO. inversion HO as [|? ? HO1 HO2]; subst. destruct (HT HO2) as [HT1 HT2]. cbn [hint_ok] in HO1. unfold ref_ok in HO1.
        destruct r as [d m]. unfold r_run. cbn [r_dist r_run_minus_3] in *. replace (m + 3 - 3) with m by lia. rewrite (N.mod_small m) by lia.
        split.
        -- unfold le16. cbn [app]. rewrite <- (le16_value d) at 3 by lia. constructor; [rewrite le16_value; lia|assumption].
        -- apply Forall_app. split; [apply le16_bytes; lia|]. constructor; [unfold is_byte; lia|assumption].
      * rewrite app_length. unfold le16. cbn [List.length app]. lia.
  - destruct (write_corrects_spec (N.of_nat (S k))) as (a & EA & HT & HB & HS); [lia|]. rewrite app_length, repeat_length in HL.
    destruct (IH r ltac:(lia)) as (bs & E & HT' & HS'). rewrite write_run by assumption. rewrite EA. cbn [obind]. rewrite E. cbn [obind].
    eexists. split; [reflexivity|]. split.
    + intro HO. apply Forall_app in HO. destruct HO as [_ HO]. destruct (HT' HO) as [HT1 HT2]. rewrite Nat2N.id in HT.
      split; [now apply trace_bytes_app|]. now apply Forall_app.
    + rewrite !app_length, repeat_length. assert ((N.of_nat (S k) + 32766) / 32767 <= N.of_nat (S k)) by lia. lia.
Qed.

Lemma write_app n : forall a b, (List.length a < n)%nat -> (starts_correct (rev a) = false \/ starts_correct b = false) ->
  st_write (a ++ b) = obind (st_write a) (fun x => obind (st_write b) (fun y => Ok (x ++ y))).
Proof.
  induction n as [|n IH]; intros a b HL HC; [lia|].
  assert (SB : exists y, st_write b = Ok y) by (destruct (write_spec (S (List.length b)) b) as (y & E & _); [lia|eauto]). destruct SB as (y & EY).
  destruct (split_corrects a) as ([|k] & r & -> & HR).
  - cbn [repeat app] in *. destruct r as [|[| |r] l]; [|discriminate| |]; cbn [List.length app] in *.
    + rewrite write_nil. cbn [obind app]. rewrite EY. reflexivity.
    + assert (HC' : starts_correct (rev l) = false \/ starts_correct b = false).
      { destruct HC as [HC|HC]; [left|now right]. cbn [rev] in HC. destruct (rev l); [reflexivity|exact HC]. }
      rewrite !write_lit, (IH l b) by (auto; lia). destruct (st_write l); cbn [obind]; try reflexivity. rewrite EY. cbn [obind app]. reflexivity.
    + assert (HC' : starts_correct (rev l) = false \/ starts_correct b = false).
      { destruct HC as [HC|HC]; [left|now right]. cbn [rev] in HC. destruct (rev l); [reflexivity|exact HC]. }
      rewrite !write_ref, (IH l b) by (auto; lia). destruct (st_write l); cbn [obind]; try reflexivity. rewrite EY. cbn [obind app]. reflexivity.
  - rewrite app_length, repeat_length in HL. rewrite <- app_assoc.
    assert (HC' : (starts_correct (rev r) = false \/ starts_correct b = false) /\ starts_correct (r ++ b) = false).
    { rewrite rev_app_distr in HC. destruct r as [|h r].
      - cbn [rev app] in *. split; [now left|]. destruct HC as [HC|HC]; [|assumption]. exfalso. cbn [repeat] in HC.
        assert (X : rev (Correct :: repeat Correct k) = Correct :: repeat Correct k).
        { change (Correct :: repeat Correct k) with (repeat Correct (S k)). generalize (S k). intro j. clear. induction j as [|j IHj]; [reflexivity|]. cbn [repeat rev]. rewrite IHj. change [Correct] with (repeat Correct 1). rewrite <- repeat_app. now replace (j + 1)%nat with (S j) by lia. }
        cbn [rev] in HC, X. rewrite ?app_nil_r in HC. rewrite X in HC. discriminate.
      - split; [|destruct h; [discriminate|reflexivity|reflexivity]]. destruct HC as [HC|HC]; [left|now right].
        destruct (rev (h :: r)) eqn:ER; [reflexivity|exact HC]. }
    destruct HC' as [HC1 HC2]. rewrite !write_run by assumption. rewrite (IH r b) by (auto; lia).
    destruct (write_corrects _); cbn [obind]; try reflexivity. destruct (st_write r); cbn [obind]; try reflexivity. rewrite EY. cbn [obind]. now rewrite app_assoc.
Qed.
