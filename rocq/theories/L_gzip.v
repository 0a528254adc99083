(** Lemmas: reading the gzip header. *)
From Verif Require Import Base M_gzip Spec Clients L_bits.
From Coq Require Import ZArith ZifyBool ZifyNat ZifyN.
Ltac Zify.zify_post_hook ::= Z.div_mod_to_equations.
Local Open Scope N_scope.
Local Open Scope model_scope.

(** [m] returns normally, only fails with an I/O error at the end of the input, and does not look ahead. *)
Definition mono {A} (m : M source A) : Prop := forall bytes e,
  match m (mkSource bytes e) with
  | (Ok a, s) => exists used tail, s = mkSource tail e /\ bytes = used ++ tail
       /\ forall more e', m (mkSource (bytes ++ more) e') = (Ok a, mkSource (tail ++ more) e')
  | (Err (EIo x), s) => x = e /\ s = mkSource [] e
  | (Err (EMsg t), _) => forall more e', fst (m (mkSource (bytes ++ more) e')) = Err (EMsg t)
  | _ => False
  end.

Definition gspec {A} (m : M source A) (P : A -> list N -> Prop) : Prop := forall bytes e a tail,
  m (mkSource bytes e) = (Ok a, mkSource tail e) <-> exists used, bytes = used ++ tail /\ P a used.

Lemma mono_ret {A} (a : A) : mono (ret a).
Proof. intros bytes e. cbn. exists [], bytes. auto. Qed.
Lemma mono_ensure b t : mono (ensure b t).
Proof. intros bytes e. destruct b; cbn; [exists [], bytes|]; auto. Qed.

Lemma mono_bind {A B} (m : M source A) (k : A -> M source B) : mono m -> (forall a, mono (k a)) -> mono (bind m k).
Proof.
  intros H1 H2 bytes e. specialize (H1 bytes e). unfold bind. destruct (m (mkSource bytes e)) as [[a|[x|t|]| |] s].
  - destruct H1 as (u & tl & -> & -> & HM). specialize (H2 a tl e). destruct (k a (mkSource tl e)) as [[b|[x|t|]| |] s2].
    + destruct H2 as (u2 & tl2 & -> & -> & HM2). exists (u ++ u2), tl2. split; [reflexivity|]. split; [now rewrite app_assoc|].
      intros more e'. rewrite HM. apply HM2.
    + assumption.
    + intros more e'. rewrite HM. apply H2.
    + assumption.
    + assumption.
    + assumption.
  - assumption.
  - intros more e'. specialize (H1 more e'). destruct (m (mkSource (bytes ++ more) e')) as [o s']. cbn [fst] in H1. now subst o.
  - assumption.
  - assumption.
  - assumption.
Qed.

Lemma gspec_ret {A} (a : A) : gspec (ret a) (fun x u => x = a /\ u = []).
Proof.
  intros bytes e x tail. unfold ret. split.
  - intros [= <- <-]. exists []. auto.
  - intros (u & -> & -> & ->). reflexivity.
Qed.
Lemma gspec_ensure b t : gspec (ensure b t) (fun _ u => b = true /\ u = []).
Proof.
  intros bytes e [] tail. destruct b; cbn.
  - split; [intros [= <-]; exists []; auto|]. intros (u & -> & _ & ->). reflexivity.
  - split; [discriminate|]. intros (u & _ & [=] & _).
Qed.
Lemma gspec_bind {A B} (m : M source A) (k : A -> M source B) P Q : mono m -> gspec m P -> (forall a, gspec (k a) (Q a)) ->
  gspec (bind m k) (fun b u => exists a u1 u2, u = u1 ++ u2 /\ P a u1 /\ Q a b u2).
Proof.
  intros HM H1 H2 bytes e b tail. specialize (HM bytes e). unfold bind. split.
  - intro E. destruct (m (mkSource bytes e)) as [[a|[x|t|]| |] s] eqn:E1; try discriminate.
    destruct HM as (u & tl & -> & _ & _). apply H1 in E1. destruct E1 as (u1 & -> & HP).
    apply H2 in E. destruct E as (u2 & -> & HQ). exists (u1 ++ u2). rewrite app_assoc. split; [reflexivity|]. eauto 7.
  - intros (u & -> & a & u1 & u2 & -> & HP & HQ). rewrite <- app_assoc.
    rewrite (proj2 (H1 (u1 ++ u2 ++ tail) e a (u2 ++ tail))) by eauto. apply H2. eauto.
Qed.
Lemma gspec_weaken {A} (m : M source A) P Q : gspec m P -> (forall a u, P a u <-> Q a u) -> gspec m Q.
Proof.
  intros H E bytes e a tail. rewrite (H bytes e a tail). split; intros (u & X & Y); exists u; (split; [assumption|]); now apply E.
Qed.

Lemma mono_read_exact n : mono (read_exact n).
Proof.
  intros bytes e. unfold read_exact. cbn [rest at_end]. destruct (Nat.leb_spec n (List.length bytes)); [|auto].
  exists (firstn n bytes), (skipn n bytes). split; [reflexivity|]. split; [symmetry; apply firstn_skipn|].
  intros more e'. cbn [rest at_end]. rewrite app_length. destruct (Nat.leb_spec n (List.length bytes + List.length more)); [|lia].
  rewrite firstn_app, skipn_app. replace (n - List.length bytes)%nat with 0%nat by lia. cbn [firstn skipn]. now rewrite app_nil_r.
Qed.
Lemma gspec_read_exact n : gspec (read_exact n) (fun a u => a = u /\ List.length u = n).
Proof.
  intros bytes e a tail. unfold read_exact. cbn [rest at_end]. split.
  - destruct (Nat.leb_spec n (List.length bytes)); [|discriminate]. intros [= <- <-]. exists (firstn n bytes).
    rewrite firstn_skipn, firstn_length_le by assumption. auto.
  - intros (u & -> & -> & <-). rewrite app_length. destruct (Nat.leb_spec (List.length u) (List.length u + List.length tail)); [|lia].
    now rewrite firstn_app, skipn_app, Nat.sub_diag, firstn_all, skipn_all, app_nil_r.
Qed.

(** ** Null-terminated fields *)
Lemma null_loop_ok bytes : forall fuel into e, (List.length bytes < fuel)%nat ->
  read_null_terminated_loop fuel into (mkSource bytes e) =
  match find (fun i => nth i bytes 1 =? 0) (seq 0 (List.length bytes)) with
  | Some i => (Ok (into ++ firstn (S i) bytes), mkSource (skipn (S i) bytes) e)
  | None => (Err (EIo e), mkSource [] e)
  end.
Proof.
  induction bytes as [|b bytes IH]; intros fuel into e HF; (destruct fuel as [|fuel]; [cbn [List.length] in HF; lia|]);
    cbn [read_null_terminated_loop]; unfold bind at 1, read_exact; cbn [rest at_end List.length Nat.leb firstn skipn nth]; [reflexivity|].
  cbn [seq find nth]. rewrite (N.eqb_sym 0 b). destruct (b =? 0); [reflexivity|]. rewrite IH by (cbn [List.length] in HF; lia).
  rewrite <- seq_shift.
  assert (X : forall l, find (fun i => nth i (b :: bytes) 1 =? 0) (map S l) = option_map S (find (fun i => nth i bytes 1 =? 0) l)).
  { induction l as [|i l IHl]; cbn [map find option_map]; [reflexivity|]. change (nth (S i) (b :: bytes) 1) with (nth i bytes 1).
    destruct (nth i bytes 1 =? 0); [reflexivity|exact IHl]. }
  rewrite X. destruct (find _ _) as [i|]; cbn [option_map]; [|reflexivity].
  rewrite <- app_assoc. reflexivity.
Qed.

Lemma find_zero bytes i : find (fun i => nth i bytes 1 =? 0) (seq 0 (List.length bytes)) = Some i <->
  (i < List.length bytes)%nat /\ nth i bytes 1 = 0 /\ forall j, (j < i)%nat -> nth j bytes 1 <> 0.
Proof.
  assert (G : forall n s, find (fun i => nth i bytes 1 =? 0) (seq s n) = Some i <->
    (s <= i < s + n)%nat /\ nth i bytes 1 = 0 /\ forall j, (s <= j < i)%nat -> nth j bytes 1 <> 0).
  { induction n as [|n IH]; intro s; cbn [seq find].
    - split; [discriminate|lia].
    - destruct (N.eqb_spec (nth s bytes 1) 0) as [E|E].
      + split.
        * intros [= <-]. split; [lia|]. split; [assumption|lia].
        * intros (H1 & H2 & H3). assert (s = i \/ s < i)%nat as [->|] by lia; [reflexivity|]. now destruct (H3 s ltac:(lia)).
      + rewrite IH. split; intros (H1 & H2 & H3).
        * split; [lia|]. split; [assumption|]. intros j Hj. assert (j = s \/ S s <= j)%nat as [->|] by lia; [assumption|apply H3; lia].
        * assert (s <> i) by (intros ->; contradiction). split; [lia|]. split; [assumption|]. intros j Hj. apply H3. lia. }
  rewrite G. split; intros (H1 & H2 & H3); (split; [lia|]); (split; [assumption|]); intros j Hj; apply H3; lia.
Qed.

Lemma zero_terminated_firstn bytes i : (i < List.length bytes)%nat -> nth i bytes 1 = 0 -> (forall j, (j < i)%nat -> nth j bytes 1 <> 0) ->
  zero_terminated (firstn (S i) bytes).
Proof.
  intros H1 H2 H3. exists (firstn i bytes). split.
  - assert (X : firstn (S i) bytes = firstn i bytes ++ [nth i bytes 1]).
    { clear - H1. revert i H1. induction bytes as [|b l IH]; intros i H; cbn [List.length] in H; [lia|].
      destruct i as [|i]; [reflexivity|]. cbn [firstn nth app]. f_equal. apply IH. lia. }
    now rewrite X, H2.
  - intro HI. apply (In_nth _ _ 1) in HI. destruct HI as (j & Hj & E). rewrite firstn_length in Hj.
    apply (H3 j ltac:(lia)). rewrite <- E. clear - Hj. revert i j Hj. induction bytes as [|b l IH]; intros i j Hj; [cbn in Hj; lia|].
    destruct i as [|i]; [cbn in Hj; lia|]. destruct j as [|j]; [reflexivity|]. cbn [firstn nth]. apply IH. cbn [List.length] in Hj. lia.
Qed.

Lemma gspec_null into : gspec (read_null_terminated into) (fun a u => a = into ++ u /\ zero_terminated u).
Proof.
  intros bytes e a tail. unfold read_null_terminated. cbn [rest]. rewrite null_loop_ok by lia. split.
  - destruct (find _ _) as [i|] eqn:F; [|discriminate]. intros [= <- <-]. apply find_zero in F. destruct F as (F1 & F2 & F3).
    exists (firstn (S i) bytes). split; [symmetry; apply firstn_skipn|]. split; [reflexivity|]. now apply zero_terminated_firstn.
  - intros (u & -> & -> & body & -> & NZ).
    assert (F : find (fun i => nth i ((body ++ [0]) ++ tail) 1 =? 0) (seq 0 (List.length ((body ++ [0]) ++ tail))) = Some (List.length body)).
    { apply find_zero. rewrite <- app_assoc. rewrite app_length. cbn [List.length app]. split; [lia|]. split.
      - rewrite app_nth2, Nat.sub_diag by lia. reflexivity.
      - intros j Hj. rewrite app_nth1 by lia. intro E. apply NZ. rewrite <- E. now apply nth_In. }
    rewrite F.
    assert (X : firstn (S (List.length body)) ((body ++ [0]) ++ tail) = body ++ [0]).
    { rewrite firstn_app. rewrite firstn_all2 by (rewrite app_length; cbn; lia).
      rewrite app_length. cbn [List.length]. replace (S (List.length body) - (List.length body + 1))%nat with 0%nat by lia. cbn. now rewrite app_nil_r. }
    assert (Y : skipn (S (List.length body)) ((body ++ [0]) ++ tail) = tail).
    { apply (app_inv_head (firstn (S (List.length body)) ((body ++ [0]) ++ tail))). rewrite firstn_skipn. now rewrite X. }
    now rewrite X, Y.
Qed.

Lemma mono_null into : mono (read_null_terminated into).
Proof.
  intros bytes e. destruct (read_null_terminated into (mkSource bytes e)) as [o s] eqn:E.
  assert (E0 := E). unfold read_null_terminated in E. cbn [rest] in E. rewrite null_loop_ok in E by lia.
  destruct (find _ _) as [i|] eqn:F; injection E as <- <-; [|auto].
  exists (firstn (S i) bytes), (skipn (S i) bytes). split; [reflexivity|]. split; [symmetry; apply firstn_skipn|].
  intros more e'. apply gspec_null. apply (gspec_null into) in E0. destruct E0 as (u & EU & EA & Z).
  exists u. rewrite EA. split; [rewrite EU at 1; now rewrite app_assoc|]. auto.
Qed.

(** ** Optional fields *)
Definition adds (m : list N -> M source (list N)) (P : list N -> Prop) : Prop :=
  forall whole, mono (m whole) /\ gspec (m whole) (fun a u => a = whole ++ u /\ P u).

Lemma adds_null : adds read_null_terminated zero_terminated.
Proof. intro whole. split; [apply mono_null|apply gspec_null]. Qed.

Lemma adds_hcrc : adds read_hcrc (fun s => List.length s = 2%nat).
Proof.
  intro whole. unfold read_hcrc. split.
  - apply mono_bind; [apply mono_read_exact|intro; apply mono_ret].
  - eapply gspec_weaken; [apply gspec_bind; [apply mono_read_exact|apply gspec_read_exact|intro; apply gspec_ret]|].
    intros a u. split.
    + intros (x & u1 & u2 & -> & (-> & L) & -> & ->). rewrite app_nil_r. auto.
    + intros (-> & L). exists u, u, []. now rewrite app_nil_r.
Qed.

Lemma land_lor_len lo hi : lo < 256 -> N.lor (N.shiftl hi 8) lo = lo + 256 * hi.
Proof.
  intro H. rewrite N.lor_comm. apply N.bits_inj. intro k. rewrite N.lor_spec.
  destruct (N.ltb_spec k 8).
  - rewrite N.shiftl_spec_low, orb_false_r by lia.
    rewrite <- (N.mod_pow2_bits_low lo 8 k), <- (N.mod_pow2_bits_low (lo + 256 * hi) 8 k) by lia. f_equal.
    change (2 ^ 8) with 256. rewrite N.mul_comm, N.mod_add by lia. reflexivity.
  - rewrite N.shiftl_spec_high by lia.
    replace (N.testbit lo k) with false.
    2: { symmetry. apply N.bits_above_log2. destruct (N.eq_dec lo 0) as [->|]; [cbn; lia|].
         assert (N.log2 lo < 8) by (apply N.log2_lt_pow2; cbn; lia). lia. }
    cbn [orb]. replace k with ((k - 8) + 8) at 2 by lia. rewrite <- N.div_pow2_bits. f_equal.
    change (2 ^ 8) with 256. rewrite (N.mul_comm 256 hi), N.div_add by lia. now rewrite N.div_small by lia.
Qed.

Definition extra_field (s : list N) : Prop :=
  exists lo hi body, s = [lo; hi] ++ body /\ N.of_nat (List.length body) = lo + 256 * hi.
(** On bytes. *)
Definition extra_raw (s : list N) : Prop :=
  exists lo hi body, s = [lo; hi] ++ body /\ N.of_nat (List.length body) = N.lor (N.shiftl hi 8) lo.

Lemma extra_same s : bytes_ok s -> extra_raw s <-> extra_field s.
Proof.
  intro HB. split; intros (lo & hi & body & -> & L); exists lo, hi, body; (split; [reflexivity|]).
  - inversion HB; subst. rewrite L. now apply land_lor_len.
  - inversion HB; subst. rewrite L. symmetry. now apply land_lor_len.
Qed.

Lemma adds_extra : adds read_extra extra_raw.
Proof.
  intro whole. unfold read_extra. split.
  - apply mono_bind; [apply mono_read_exact|intro]. apply mono_bind; [apply mono_read_exact|intro; apply mono_ret].
  - eapply gspec_weaken.
    + apply gspec_bind; [apply mono_read_exact|apply gspec_read_exact|intro buf].
      apply gspec_bind; [apply mono_read_exact|apply gspec_read_exact|intro ex; apply gspec_ret].
    + intros a u. cbn beta. split.
      * intros (buf & u1 & u2 & -> & (-> & L) & ex & u3 & u4 & -> & (-> & L3) & -> & ->).
        destruct u1 as [|lo [|hi [|]]]; try discriminate. cbn [nth] in L3. rewrite app_nil_r. split; [reflexivity|].
        exists lo, hi, u3. split; [reflexivity|]. lia.
      * intros (-> & lo & hi & body & -> & L). exists [lo; hi], [lo; hi], body. split; [reflexivity|]. split; [auto|].
        exists body, body, []. rewrite app_nil_r. split; [reflexivity|]. cbn [nth]. split; [split; [reflexivity|lia]|]. auto.
Qed.

Lemma adds_if (c : bool) m P : adds m P -> adds (fun whole => if c then m whole else ret whole) (optional c P).
Proof.
  intros H whole. destruct c; [apply H|]. split; [apply mono_ret|]. eapply gspec_weaken; [apply gspec_ret|].
  intros a u. cbn [optional]. split; intros [-> ->]; [now rewrite app_nil_r|auto using app_nil_r].
Qed.

Lemma adds_seq m1 m2 P1 P2 : adds m1 P1 -> adds m2 P2 ->
  adds (fun whole => x <- m1 whole ;; m2 x) (fun u => exists a b, u = a ++ b /\ P1 a /\ P2 b).
Proof.
  intros H1 H2 whole. split; [apply mono_bind; [apply H1|intro; apply H2]|].
  eapply gspec_weaken; [apply gspec_bind; [apply H1|apply H1|intro; apply H2]|].
  intros a u. cbn beta. split.
  - intros (x & u1 & u2 & -> & (-> & A) & -> & B). rewrite <- app_assoc. eauto 6.
  - intros (-> & x & y & -> & A & B). exists (whole ++ x), x, y. rewrite <- app_assoc. auto.
Qed.

Definition header_fields (flags : N) (u : list N) : Prop :=
  exists extra name comment hcrc, u = extra ++ name ++ comment ++ hcrc
    /\ optional (has_bit flags 2) extra_raw extra /\ optional (has_bit flags 3) zero_terminated name
    /\ optional (has_bit flags 4) zero_terminated comment /\ optional (has_bit flags 1) (fun s => List.length s = 2%nat) hcrc.

Lemma adds_fields flags : adds (fun whole =>
    whole <- (if has_bit flags 2 then read_extra whole else ret whole) ;;
    whole <- (if has_bit flags 3 then read_null_terminated whole else ret whole) ;;
    whole <- (if has_bit flags 4 then read_null_terminated whole else ret whole) ;;
    (if has_bit flags 1 then read_hcrc whole else ret whole)) (header_fields flags).
Proof.
  intro whole.
  destruct (adds_seq _ _ _ _ (adds_if (has_bit flags 2) _ _ adds_extra)
    (adds_seq _ _ _ _ (adds_if (has_bit flags 3) _ _ adds_null)
      (adds_seq _ _ _ _ (adds_if (has_bit flags 4) _ _ adds_null) (adds_if (has_bit flags 1) _ _ adds_hcrc))) whole) as [M G].
  split; [exact M|]. eapply gspec_weaken; [exact G|]. intros a u. cbn beta. split.
  - intros (-> & e & r1 & -> & H1 & n & r2 & -> & H2 & c & h & -> & H3 & H4). split; [reflexivity|]. exists e, n, c, h. auto.
  - intros (-> & e & n & c & h & -> & H1 & H2 & H3 & H4). split; [reflexivity|]. exists e, (n ++ c ++ h). split; [reflexivity|].
    split; [assumption|]. exists n, (c ++ h). split; [reflexivity|]. split; [assumption|]. exists c, h. auto.
Qed.

Definition header_raw (u : list N) : Prop :=
  exists head fields, u = head ++ fields /\ List.length head = 10%nat
    /\ ((31 =? nth 0 head 0) && (139 =? nth 1 head 0) = true)
    /\ (8 =? nth 2 head 0) = true /\ (0 =? N.land (nth 3 head 0) 224) = true /\ header_fields (nth 3 head 0) fields.

Lemma mono_header : mono discard_header.
Proof.
  unfold discard_header. apply mono_bind; [apply mono_read_exact|intro h]. cbn zeta.
  apply mono_bind; [apply mono_ensure|intros _]. apply mono_bind; [apply mono_ensure|intros _].
  apply mono_bind; [apply mono_ensure|intros _]. apply adds_fields.
Qed.

Lemma gspec_header : gspec discard_header (fun a u => a = u /\ header_raw u).
Proof.
  unfold discard_header. cbn zeta. eapply gspec_weaken.
  - apply gspec_bind; [apply mono_read_exact|apply gspec_read_exact|intro h].
    apply gspec_bind; [apply mono_ensure|apply gspec_ensure|intro]. apply gspec_bind; [apply mono_ensure|apply gspec_ensure|intro].
    apply gspec_bind; [apply mono_ensure|apply gspec_ensure|intro]. apply adds_fields.
  - intros a u. cbn beta. split.
    + intros (h & u1 & u2 & -> & (-> & L) & x1 & e1 & v1 & -> & (H1 & ->) & x2 & e2 & v2 & -> & (H2 & ->) & x3 & e3 & v3 & -> & (H3 & ->) & -> & H4).
      cbn [app]. split; [reflexivity|]. exists u1, v3. auto 7.
    + intros (-> & h & f & -> & L & H1 & H2 & H3 & H4). exists h, h, f. split; [reflexivity|]. split; [auto|].
      exists tt, [], f. split; [reflexivity|]. split; [auto|]. exists tt, [], f. split; [reflexivity|]. split; [auto|].
      exists tt, [], f. split; [reflexivity|]. auto.
Qed.

Lemma has_bit_test v k : has_bit v k = N.testbit v k.
Proof. unfold has_bit. apply land_pow2_test. Qed.

Lemma reserved_bits f : f < 256 -> (0 =? N.land f 224) = true <->
  N.testbit f 5 = false /\ N.testbit f 6 = false /\ N.testbit f 7 = false.
Proof.
  intro H.
  assert (S : forallb (fun f => Bool.eqb (0 =? N.land f 224) (negb (N.testbit f 5) && negb (N.testbit f 6) && negb (N.testbit f 7)))
    (map N.of_nat (seq 0 256)) = true) by (vm_compute; reflexivity).
  rewrite forallb_forall in S. specialize (S f).
  assert (I : In f (map N.of_nat (seq 0 256))) by (apply in_map_iff; exists (N.to_nat f); split; [lia|apply in_seq; lia]).
  specialize (S I). apply eqb_prop in S. rewrite S. destruct (N.testbit f 5), (N.testbit f 6), (N.testbit f 7); cbn; intuition discriminate.
Qed.

Lemma header_same u : bytes_ok u -> header_raw u <-> gzip_header u.
Proof.
  intro HB. split.
  - intros (h & f & -> & L & H1 & H2 & H3 & extra & name & comment & hcrc & -> & F1 & F2 & F3 & F4).
    destruct h as [|m1 [|m2 [|me [|flg fixed]]]]; try discriminate. cbn [nth] in *.
    exists flg, fixed, extra, name, comment, hcrc. rewrite !has_bit_test in *.
    unfold bytes_ok in HB. rewrite !Forall_app in HB. destruct HB as (HH & HE & _).
    assert (flg < 256) by (inversion HH as [|? ? _ X1]; inversion X1 as [|? ? _ X2]; inversion X2 as [|? ? _ X3]; now inversion X3).
    apply reserved_bits in H3; [|assumption]. split; [|split; [cbn in L; lia|tauto || (repeat split; try tauto)]].
    + assert (m1 = 31 /\ m2 = 139 /\ me = 8) as (-> & -> & ->) by lia. reflexivity.
    + destruct (N.testbit flg 2); cbn [optional] in *; [|assumption]. now apply extra_same.
  - intros (flg & fixed & extra & name & comment & hcrc & -> & L & B5 & B6 & B7 & F1 & F2 & F3 & F4).
    exists ([31; 139; 8; flg] ++ fixed), (extra ++ name ++ comment ++ hcrc).
    unfold bytes_ok in HB. rewrite !Forall_app in HB. destruct HB as (HH & _ & HE & _).
    split; [now rewrite <- app_assoc|]. split; [rewrite app_length, L; reflexivity|]. cbn [app nth].
    split; [reflexivity|]. split; [reflexivity|].
    assert (flg < 256) by (inversion HH as [|? ? _ X1]; inversion X1 as [|? ? _ X2]; inversion X2 as [|? ? _ X3]; now inversion X3).
    split; [now apply reserved_bits|]. exists extra, name, comment, hcrc. rewrite !has_bit_test. split; [reflexivity|]. split; [|auto].
    destruct (N.testbit flg 2); cbn [optional] in *; [|assumption]. now apply extra_same.
Qed.
