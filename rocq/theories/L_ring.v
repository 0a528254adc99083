(** Lemmas: the ring buffer against the list of all bytes pushed, and decompression against LZ77. *)
From Verif Require Import Base M_bit M_lib M_circles M_parse M_serialise Spec Clients L_bits.
From Coq Require Import ZArith ZifyBool ZifyNat ZifyN.
Ltac Zify.zify_post_hook ::= Z.div_mod_to_equations.
Local Open Scope N_scope.
Local Open Scope model_scope.

(** ** Index arithmetic *)
Lemma mod_back n d cap : (0 < cap)%nat -> (d <= n)%nat -> (d <= cap)%nat -> (1 <= d)%nat ->
  ((n - d) mod cap = if Nat.leb d (n mod cap) then n mod cap - d else n mod cap + cap - d)%nat.
Proof.
  intros HC H1 H2 H3. assert (D := Nat.div_mod n cap ltac:(lia)). assert (L := Nat.mod_upper_bound n cap ltac:(lia)).
  destruct (Nat.leb_spec d (n mod cap)).
  - symmetry. apply (Nat.mod_unique _ _ (n / cap)); lia.
  - destruct (n / cap)%nat as [|q] eqn:EQ; [lia|].
    symmetry. apply (Nat.mod_unique _ _ q); [lia|]. nia.
Qed.

Lemma mod_next n cap : (0 < cap)%nat -> ((n mod cap + 1) mod cap = (n + 1) mod cap)%nat.
Proof. intro H. rewrite Nat.add_mod_idemp_l by lia. reflexivity. Qed.

Lemma mod_differ n i cap : (i < n)%nat -> (n < i + cap)%nat -> (i mod cap <> n mod cap)%nat.
Proof.
  intros H1 H2 E. assert (D1 := Nat.div_mod n cap ltac:(lia)). assert (D2 := Nat.div_mod i cap ltac:(lia)).
  rewrite E in D2. assert ((n / cap <= i / cap) \/ (i / cap + 1 <= n / cap))%nat as [|] by lia; nia.
Qed.

Lemma upd_length {A} (l : list A) i x : List.length (upd l i x) = List.length l.
Proof. revert i. induction l; intros [|i]; cbn [upd List.length]; auto. Qed.
Lemma upd_same {A} (l : list A) i x : (i < List.length l)%nat -> nth_error (upd l i x) i = Some x.
Proof. revert i. induction l; intros [|i] H; cbn [upd nth_error List.length] in *; try lia; auto. apply IHl. lia. Qed.
Lemma upd_other {A} (l : list A) i j x : i <> j -> nth_error (upd l i x) j = nth_error l j.
Proof. revert i j. induction l; intros [|i] [|j] H; cbn [upd nth_error] in *; try congruence. apply IHl. lia. Qed.

(** ** The ring *)
Definition ring (cap : N) (hist : list N) (b : circ) : Prop :=
  let c := N.to_nat cap in
  0 < cap < 65536 /\ List.length (cb_data b) = c /\ cb_idx b = (List.length hist mod c)%nat
  /\ cb_valid b = N.min cap (N.of_nat (List.length hist))
  /\ forall i, (i < List.length hist)%nat -> (List.length hist <= i + c)%nat ->
       nth_error (cb_data b) (i mod c)%nat = nth_error hist i.

Lemma ring_new cap : 0 < cap < 65536 -> exists b, cb_with_capacity cap = Ok b /\ ring cap [] b.
Proof.
  intro H. unfold cb_with_capacity. destruct (0 <? cap) eqn:E; [|lia]. eexists. split; [reflexivity|].
  split; [assumption|]. cbn [cb_data cb_idx cb_valid List.length]. rewrite repeat_length. split; [reflexivity|].
  split; [symmetry; apply Nat.mod_0_l; lia|]. split; [lia|]. intros i Hi. lia.
Qed.

Lemma ring_push cap hist b x : ring cap hist b -> exists b', cb_push b x = Ok b' /\ ring cap (hist ++ [x]) b'.
Proof.
  intros (HC & HL & HI & HV & HN). unfold cb_push, set_idx.
  assert (L := Nat.mod_upper_bound (List.length hist) (N.to_nat cap) ltac:(lia)).
  destruct (Nat.ltb_spec (cb_idx b) (List.length (cb_data b))) as [_|]; [|lia]. cbn [obind]. rewrite upd_length, HL.
  destruct (Nat.eqb_spec (N.to_nat cap) 0) as [|_]; [lia|]. cbn [obind].
  assert (R : forall v, v = N.min cap (N.of_nat (List.length (hist ++ [x]))) ->
     ring cap (hist ++ [x]) (mkCirc (upd (cb_data b) (cb_idx b) x) ((cb_idx b + 1) mod N.to_nat cap) v)).
  { intros v ->. split; [assumption|]. cbn [cb_data cb_idx cb_valid]. rewrite upd_length. split; [assumption|].
    rewrite app_length. cbn [List.length]. split; [rewrite HI; apply mod_next; lia|]. split; [lia|].
    intros i Hi1 Hi2. assert (i = List.length hist \/ i < List.length hist)%nat as [->|Hi] by lia.
    - rewrite <- HI. rewrite upd_same by lia. now rewrite nth_error_app2, Nat.sub_diag by lia.
    - rewrite nth_error_app1 by lia. rewrite upd_other; [apply HN; lia|]. rewrite HI.
      assert (X := mod_differ (List.length hist) i (N.to_nat cap) Hi ltac:(lia)). congruence. }
  rewrite app_length in R. cbn [List.length] in R.
  destruct (N.ltb_spec (cb_valid b) (N.of_nat (N.to_nat cap))).
  - destruct (N.eqb_spec (cb_valid b) 65535); [lia|]. eexists. split; [reflexivity|]. apply R. lia.
  - eexists. split; [reflexivity|]. apply R. lia.
Qed.

Lemma ring_extend cap l : forall hist b, ring cap hist b -> exists b', cb_extend b l = Ok b' /\ ring cap (hist ++ l) b'.
Proof.
  induction l as [|x l IH]; intros hist b R; cbn [cb_extend].
  - exists b. now rewrite app_nil_r.
  - destruct (ring_push _ _ _ x R) as (b1 & -> & R1). cbn [obind]. destruct (IH _ _ R1) as (b2 & E & R2).
    exists b2. split; [assumption|]. now rewrite <- app_assoc in R2.
Qed.

Lemma ring_ops cap ops : forall hist b, ring cap hist b -> exists b', run_circ_ops ops b = Ok b' /\ ring cap (hist ++ pushed ops) b'.
Proof.
  induction ops as [|op ops IH]; intros hist b R; cbn [run_circ_ops].
  - exists b. cbn. now rewrite app_nil_r.
  - assert (exists b1, run_circ_op op b = Ok b1 /\ ring cap (hist ++ match op with CPush x => [x] | CExtend l => l end) b1)
      as (b1 & -> & R1) by (destruct op; [now apply ring_push|now apply ring_extend]).
    cbn [obind]. destruct (IH _ _ R1) as (b2 & E & R2). exists b2. split; [assumption|]. now rewrite <- app_assoc in R2.
Qed.

Lemma window_ring cap hist b : cap < 65536 -> window_after cap hist b -> ring cap hist b.
Proof.
  intros HC (b0 & ops & E0 & E & ->). assert (0 < cap) by (unfold cb_with_capacity in E0; destruct (0 <? cap) eqn:X; [lia|discriminate]).
  destruct (ring_new cap ltac:(lia)) as (b1 & E1 & R1). rewrite E0 in E1. injection E1 as <-.
  destruct (ring_ops cap ops _ _ R1) as (b2 & E2 & R2). rewrite E in E2. injection E2 as <-. exact R2.
Qed.

Lemma ring_get cap hist b debug d : ring cap hist b -> 1 <= d <= N.min cap (N.of_nat (List.length hist)) ->
  cb_get_at_dist debug b d = Ok (nth (List.length hist - N.to_nat d) hist 0).
Proof.
  intros (HC & HL & HI & HV & HN) Hd. unfold cb_get_at_dist.
  replace (debug && _) with false.
  2: { symmetry. destruct debug; [|reflexivity]. cbn [andb]. apply negb_false_iff. lia. }
  assert (X : nth_error (cb_data b) ((List.length hist - N.to_nat d) mod N.to_nat cap)%nat = Some (nth (List.length hist - N.to_nat d) hist 0)).
  { rewrite HN by lia. apply nth_error_nth'. lia. }
  rewrite mod_back in X by lia. rewrite <- HI in X. rewrite HL. unfold get_idx.
  destruct (Nat.leb_spec (N.to_nat d) (cb_idx b)).
  - now rewrite X.
  - destruct (Nat.leb_spec (N.to_nat d) (cb_idx b + N.to_nat cap)); [|lia]. now rewrite X.
Qed.

Lemma lastn_step (hist : list N) n : (S n <= List.length hist)%nat ->
  lastn (S n) hist = nth (List.length hist - S n) hist 0 :: lastn n hist.
Proof.
  intro H. unfold lastn. rewrite (skipn_nth hist (List.length hist - S n) (nth (List.length hist - S n) hist 0)).
  - do 2 f_equal. lia.
  - apply nth_error_nth'. lia.
Qed.

Lemma ring_vec_loop cap hist b debug n : ring cap hist b -> (N.of_nat n <= N.min cap (N.of_nat (List.length hist))) ->
  cb_vec_loop debug b n = Ok (lastn n hist).
Proof.
  intro R. induction n as [|n IH]; intro H; cbn [cb_vec_loop].
  - unfold lastn. now rewrite Nat.sub_0_r, skipn_all.
  - rewrite (ring_get cap hist) by (auto; lia). cbn [obind]. rewrite IH by lia. cbn [obind].
    rewrite Nat2N.id, <- lastn_step by lia. reflexivity.
Qed.

(** ** Writing *)
Lemma write_all_nil out : write_all [] out = (Ok tt, out).
Proof. unfold write_all. destruct out as [w [r|]]; cbn [room written List.length Nat.leb]; rewrite app_nil_r; [rewrite Nat.sub_0_r|]; reflexivity. Qed.

Lemma write_all_app a b out : write_all (a ++ b) out =
  match write_all a out with (Ok _, o) => write_all b o | (Err e, o) => (Err e, o) | (Panic p, o) => (Panic p, o) | (Diverge, o) => (Diverge, o) end.
Proof.
  unfold write_all. destruct out as [w [r|]]; cbn [room written].
  - rewrite app_length. destruct (Nat.leb_spec (List.length a) r); cbn [room written].
    + destruct (Nat.leb_spec (List.length b) (r - List.length a)); destruct (Nat.leb_spec (List.length a + List.length b) r); try lia.
      * rewrite <- app_assoc. do 3 f_equal. lia.
      * rewrite firstn_app. rewrite <- app_assoc. now rewrite (firstn_all2 a) by lia.
    + destruct (Nat.leb_spec (List.length a + List.length b) r); [lia|].
      rewrite firstn_app. replace (r - List.length a)%nat with 0%nat by lia. cbn [firstn]. now rewrite app_nil_r.
  - now rewrite app_assoc.
Qed.

Lemma write_all_or l out : (fst (write_all l out) = Ok tt) \/ (fst (write_all l out) = Err (EIo OtherIo)).
Proof. unfold write_all. destruct out as [w [r|]]; cbn [room]; [destruct (Nat.leb _ _)|]; cbn; auto. Qed.

Definition emits (cap : N) (m : M (circ * sink) unit) (hist data : list N) : Prop :=
  forall b out, ring cap hist b -> exists b',
    m (b, out) = (fst (write_all data out), (b', snd (write_all data out)))
    /\ (fst (write_all data out) = Ok tt -> cb_extend b data = Ok b').

Lemma cb_extend_app l1 : forall b l2, cb_extend b (l1 ++ l2) = obind (cb_extend b l1) (fun b' => cb_extend b' l2).
Proof.
  induction l1 as [|x l1 IH]; intros b l2; cbn [app cb_extend obind]; [reflexivity|]. destruct (cb_push b x); cbn [obind]; auto.
Qed.

Lemma ring_extended cap hist b data b' : ring cap hist b -> cb_extend b data = Ok b' -> ring cap (hist ++ data) b'.
Proof. intros R E. destruct (ring_extend _ data _ _ R) as (b2 & E2 & R2). rewrite E in E2. injection E2 as <-. exact R2. Qed.

Lemma emits_ret cap hist : emits cap (ret tt) hist [].
Proof. intros b out R. exists b. rewrite write_all_nil. auto. Qed.

Lemma emits_bind cap m k hist d1 d2 : emits cap m hist d1 -> emits cap k (hist ++ d1) d2 -> emits cap (m ;;; k) hist (d1 ++ d2).
Proof.
  intros H1 H2 b out R. destruct (H1 b out R) as (b1 & E1 & R1). rewrite write_all_app. unfold bind. rewrite E1.
  destruct (write_all_or d1 out) as [O|O]; destruct (write_all d1 out) as [o out1]; cbn [fst snd] in *; subst o.
  - specialize (R1 eq_refl). destruct (H2 b1 out1 (ring_extended _ _ _ _ _ R R1)) as (b2 & E2 & R2).
    exists b2. split; [exact E2|]. intro O. rewrite cb_extend_app, R1. exact (R2 O).
  - exists b1. split; [reflexivity|discriminate].
Qed.

(** A computation that emits [data] and then fails. *)
Definition fails_after (cap : N) (m : M (circ * sink) unit) (hist data : list N) (e : err) : Prop :=
  forall b out, ring cap hist b -> exists b',
    m (b, out) = (match fst (write_all data out) with Ok _ => Err e | o => o end, (b', snd (write_all data out))).

Lemma fails_bind cap m k hist d1 d2 e : emits cap m hist d1 -> fails_after cap k (hist ++ d1) d2 e ->
  fails_after cap (m ;;; k) hist (d1 ++ d2) e.
Proof.
  intros H1 H2 b out R. destruct (H1 b out R) as (b1 & E1 & R1). rewrite write_all_app. unfold bind. rewrite E1.
  destruct (write_all_or d1 out) as [O|O]; destruct (write_all d1 out) as [o out1]; cbn [fst snd] in *; subst o.
  - specialize (R1 eq_refl). destruct (H2 b1 out1 (ring_extended _ _ _ _ _ R R1)) as (b2 & E2). exists b2. exact E2.
  - exists b1. reflexivity.
Qed.

Lemma fails_bind_l cap m k hist d e : fails_after cap m hist d e -> fails_after cap (m ;;; k) hist d e.
Proof.
  intros H b out R. destruct (H b out R) as (b1 & E1). exists b1. unfold bind. rewrite E1.
  destruct (fst (write_all d out)); reflexivity.
Qed.

(** ** Copy *)
Fixpoint lz_new (n dist : nat) (hist : list N) : list N :=
  match n with
  | O => []
  | S n' => let x := nth (List.length hist - dist) hist 0 in x :: lz_new n' dist (hist ++ [x])
  end.
Lemma lz_copy_new n dist : forall hist, lz_copy n dist hist = hist ++ lz_new n dist hist.
Proof.
  induction n as [|n IH]; intro hist; cbn [lz_copy lz_new]; [now rewrite app_nil_r|]. rewrite IH, <- app_assoc. reflexivity.
Qed.
Lemma lz_new_length n dist : forall hist, List.length (lz_new n dist hist) = n.
Proof. induction n; intro; cbn [lz_new List.length]; auto. Qed.

Lemma lz_new_spec n dist : forall hist, (1 <= dist <= List.length hist)%nat -> forall i, (i < n)%nat ->
  nth_error (hist ++ lz_new n dist hist) (List.length hist + i) = nth_error (hist ++ lz_new n dist hist) (List.length hist + i - dist).
Proof.
  induction n as [|n IH]; intros hist HD i Hi; [lia|]. cbn [lz_new].
  set (x := nth (List.length hist - dist) hist 0). change (x :: lz_new n dist (hist ++ [x])) with ([x] ++ lz_new n dist (hist ++ [x])).
  destruct i as [|i].
  - rewrite Nat.add_0_r. rewrite nth_error_app2, Nat.sub_diag by lia. cbn [app nth_error]. rewrite nth_error_app1 by lia.
    symmetry. apply nth_error_nth'. lia.
  - rewrite !app_assoc. specialize (IH (hist ++ [x])). rewrite app_length in IH. cbn [List.length] in IH.
    replace (List.length hist + S i)%nat with (List.length hist + 1 + i)%nat by lia. apply IH; lia.
Qed.

Lemma copy_loop_emits cap n : forall hist rf d, 1 <= N.of_nat d <= N.min cap (N.of_nat (List.length hist)) ->
  rf = ((List.length hist - d) mod N.to_nat cap)%nat ->
  emits cap (cb_copy_loop n rf) hist (lz_new n d hist).
Proof.
  induction n as [|n IH]; intros hist rf d Hd Hrf; cbn [cb_copy_loop lz_new]; [apply emits_ret|].
  intros b out R. assert (R0 := R). destruct R as (HC & HL & HI & HV & HN).
  set (x := nth (List.length hist - d) hist 0).
  assert (EX : get_idx (cb_data b) rf = Ok x).
  { unfold get_idx. rewrite Hrf, HN by lia. subst x. rewrite (nth_error_nth' hist 0) by lia. reflexivity. }
  rewrite EX. change (x :: lz_new n d (hist ++ [x])) with ([x] ++ lz_new n d (hist ++ [x])). rewrite write_all_app.
  destruct (write_all_or [x] out) as [O|O]; destruct (write_all [x] out) as [o out1]; cbn [fst snd] in *; subst o.
  - destruct (ring_push _ _ _ x R0) as (b1 & EP & R1). rewrite EP.
    destruct (IH (hist ++ [x]) ((rf + 1) mod List.length (cb_data b))%nat d) with (b := b1) (out := out1) as (b2 & E & R2); auto.
    + rewrite app_length. cbn [List.length]. lia.
    + rewrite HL, Hrf, mod_next, app_length by lia. cbn [List.length]. f_equal. lia.
    + exists b2. split; [exact E|]. intro O. cbn [app cb_extend]. rewrite EP. exact (R2 O).
  - exists b. split; [reflexivity|discriminate].
Qed.

Lemma read_from_spec cap hist b d : ring cap hist b -> 1 <= d <= N.min cap (N.of_nat (List.length hist)) ->
  cb_read_from b d = Ok ((List.length hist - N.to_nat d) mod N.to_nat cap)%nat.
Proof.
  intros (HC & HL & HI & HV & HN) Hd. unfold cb_read_from. rewrite HL.
  destruct (N.eqb_spec (N.of_nat (N.to_nat cap)) 0); [lia|]. f_equal.
  assert (L := Nat.mod_upper_bound (List.length hist) (N.to_nat cap) ltac:(lia)). rewrite <- HI in L.
  rewrite mod_back by lia. rewrite <- HI, N2Nat.id. set (i := cb_idx b) in *.
  destruct (Nat.leb_spec (N.to_nat d) i).
  - replace ((N.of_nat i + 2 ^ 64 - d) mod 2 ^ 64) with (N.of_nat i - d).
    2: { replace (N.of_nat i + 2 ^ 64 - d) with ((N.of_nat i - d) + 1 * 2 ^ 64) by lia.
         rewrite N.mod_add by lia. symmetry. apply N.mod_small. lia. }
    rewrite (N.mod_small (N.of_nat i - d + cap)) by lia.
    replace (N.of_nat i - d + cap) with (N.of_nat i - d + 1 * cap) by lia. rewrite N.mod_add by lia. rewrite N.mod_small by lia. lia.
  - rewrite (N.mod_small (N.of_nat i + 2 ^ 64 - d)) by lia.
    replace (N.of_nat i + 2 ^ 64 - d + cap) with ((N.of_nat i + cap - d) + 1 * 2 ^ 64) by lia.
    rewrite N.mod_add by lia. rewrite (N.mod_small (_ - d)) by lia. rewrite N.mod_small by lia. lia.
Qed.

Lemma copy_emits cap hist d len : 1 <= d <= N.min cap (N.of_nat (List.length hist)) ->
  emits cap (cb_copy d len) hist (lz_new (N.to_nat len) (N.to_nat d) hist).
Proof.
  intros Hd b out R. unfold cb_copy. cbn [fst]. assert (V : cb_valid b = N.min cap (N.of_nat (List.length hist))) by apply R.
  replace ((0 <? d) && (d <=? cb_valid b)) with true by lia. unfold bind, lift. rewrite (read_from_spec cap hist) by auto.
  apply (copy_loop_emits cap (N.to_nat len) hist _ (N.to_nat d)); [lia|reflexivity|exact R].
Qed.

Lemma copy_fails cap hist b out d len : ring cap hist b -> ~ (1 <= d <= N.min cap (N.of_nat (List.length hist))) ->
  cb_copy d len (b, out) = (Err (EMsg "dist must fit"), (b, out)).
Proof.
  intros R Hd. unfold cb_copy. cbn [fst]. assert (V : cb_valid b = N.min cap (N.of_nat (List.length hist))) by apply R.
  replace ((0 <? d) && (d <=? cb_valid b)) with false by lia. reflexivity.
Qed.

(** ** Decompression *)
Lemma literal_emits cap hist x : emits cap
  (fun st => match cb_push (fst st) x with
         | Ok d => let '(o, out) := write_all [x] (snd st) in (o, (d, out))
         | Err e => (Err e, st) | Panic m => (Panic m, st) | Diverge => (Diverge, st) end) hist [x].
Proof.
  intros b out R. cbn [fst snd]. destruct (ring_push _ _ _ x R) as (b1 & E & R1). rewrite E. destruct (write_all [x] out) as [o out1].
  exists b1. cbn [cb_extend]. rewrite E. auto.
Qed.

Lemma lz_cond d w n : (1 <=? d) && (d <=? w) && (d <=? N.of_nat n) = true <-> 1 <= d <= N.min w (N.of_nat n).
Proof. lia. Qed.

Lemma lz_decode_grows cap cs : forall h res, lz_decode cap h cs = Some res -> exists d, res = h ++ d.
Proof.
  induction cs as [|[y|r] codes IH]; intros h res E; cbn [lz_decode] in E.
  - injection E as <-. exists []. now rewrite app_nil_r.
  - destruct (IH _ _ E) as (d & ->). exists ([y] ++ d). now rewrite app_assoc.
  - destruct (_ && _); [|discriminate]. destruct (IH _ _ E) as (d & ->). rewrite lz_copy_new, <- app_assoc. eauto.
Qed.

Lemma codes_emit cap codes : forall hist data, lz_decode cap hist codes = Some (hist ++ data) ->
  emits cap (decompressed_codes codes) hist data.
Proof.
  induction codes as [|[x|r] codes IH]; intros hist data E; cbn [lz_decode decompressed_codes] in *.
  - injection E as E. assert (data = []) as -> by (apply (app_inv_head hist); now rewrite app_nil_r). apply emits_ret.
  - destruct (lz_decode_grows _ _ _ _ E) as (d' & ED).
    assert (data = [x] ++ d') as -> by (apply (app_inv_head hist); now rewrite ED, app_assoc).
    apply emits_bind; [apply literal_emits|]. apply IH. now rewrite E, ED.
  - destruct (_ && _) eqn:C; [|discriminate]. apply lz_cond in C.
    destruct (lz_decode_grows _ _ _ _ E) as (d' & ED). rewrite lz_copy_new in E, ED. rewrite <- app_assoc in ED. apply app_inv_head in ED. subst data.
    apply emits_bind; [now apply copy_emits|]. apply IH. rewrite E. now rewrite app_assoc.
Qed.

Lemma lz_decode_app cap a b : forall h, lz_decode cap h (a ++ b) =
  match lz_decode cap h a with Some h' => lz_decode cap h' b | None => None end.
Proof.
  induction a as [|[y|r] a IH]; intro h; cbn [lz_decode app]; [reflexivity|apply IH|]. destruct (_ && _); [apply IH|reflexivity].
Qed.

(** Where decoding stops: after a decodable prefix, at a reference that reaches too far back. *)
Definition bad_ref (cap : N) (n : nat) (r : Ref) : Prop := ~ (1 <= r_dist r <= N.min cap (N.of_nat n)).

Lemma lz_decode_none cap cs : forall h, lz_decode cap h cs = None ->
  exists good r more data, cs = good ++ Reference r :: more /\ lz_decode cap h good = Some (h ++ data)
    /\ bad_ref cap (List.length (h ++ data)) r.
Proof.
  induction cs as [|[y|r] cs IH]; intros h E; cbn [lz_decode] in E; [discriminate| |].
  - destruct (IH _ E) as (good & r & more & data & -> & EG & B). exists (Literal y :: good), r, more, ([y] ++ data).
    split; [reflexivity|]. cbn [lz_decode]. rewrite EG, !app_assoc. auto.
  - destruct (_ && _) eqn:C.
    + destruct (IH _ E) as (good & r' & more & data & -> & EG & B). exists (Reference r :: good), r', more.
      rewrite lz_copy_new in *. rewrite <- app_assoc in EG, B. eexists. split; [reflexivity|]. cbn [lz_decode]. rewrite C.
      rewrite lz_copy_new. split; [exact EG|exact B].
    + exists [], r, cs, []. split; [reflexivity|]. cbn [lz_decode]. rewrite app_nil_r. split; [reflexivity|]. unfold bad_ref. lia.
Qed.

Lemma codes_fail cap good r more hist data : lz_decode cap hist good = Some (hist ++ data) -> bad_ref cap (List.length (hist ++ data)) r ->
  fails_after cap (decompressed_codes (good ++ Reference r :: more)) hist data (EMsg "dist must fit").
Proof.
  revert hist data. induction good as [|c good IH]; intros hist data E B.
  - cbn [lz_decode] in E. injection E as E. assert (data = []) as -> by (apply (app_inv_head hist); now rewrite app_nil_r).
    rewrite app_nil_r in B. cbn [app decompressed_codes]. apply fails_bind_l. intros b out R. exists b.
    rewrite write_all_nil. cbn [fst snd]. apply (copy_fails cap hist); assumption.
  - destruct c as [x|q]; cbn [lz_decode app decompressed_codes] in *.
    + destruct (lz_decode_grows _ _ _ _ E) as (d' & ED). rewrite <- app_assoc in ED. apply app_inv_head in ED. subst data.
      apply fails_bind; [apply literal_emits|]. apply IH; rewrite <- app_assoc; assumption.
    + destruct (_ && _) eqn:C; [|discriminate]. apply lz_cond in C.
      destruct (lz_decode_grows _ _ _ _ E) as (d' & ED). rewrite lz_copy_new in *. rewrite <- app_assoc in ED. apply app_inv_head in ED. subst data.
      apply fails_bind; [now apply copy_emits|]. apply IH; rewrite <- app_assoc; assumption.
Qed.

Lemma lz_literals cap data : forall h, lz_decode cap h (map Literal data) = Some (h ++ data).
Proof.
  induction data as [|x data IH]; intro h; cbn [map lz_decode]; [now rewrite app_nil_r|]. rewrite IH, <- app_assoc. reflexivity.
Qed.

Lemma block_emits cap b hist data : lz_decode cap hist (block_codes b) = Some (hist ++ data) ->
  emits cap (decompressed_block b) hist data.
Proof.
  destruct b as [d|cs|v cs]; cbn [block_codes decompressed_block]; intro E; [|now apply codes_emit|now apply codes_emit].
  rewrite lz_literals in E. injection E as E. apply app_inv_head in E. subst d. intros c out R. cbn [fst snd].
  destruct (ring_extend _ data _ _ R) as (b1 & E & R1). rewrite E. destruct (write_all data out) as [o out1]. exists b1. auto.
Qed.

Lemma blocks_emit cap bs : forall hist data, lz_decode cap hist (flat_map block_codes bs) = Some (hist ++ data) ->
  emits cap (decompress_blocks bs) hist data.
Proof.
  induction bs as [|b bs IH]; intros hist data E; cbn [flat_map decompress_blocks] in *.
  - cbn in E. injection E as E. assert (data = []) as -> by (apply (app_inv_head hist); now rewrite app_nil_r). apply emits_ret.
  - rewrite lz_decode_app in E. destruct (lz_decode cap hist (block_codes b)) as [h1|] eqn:E1; [|discriminate].
    destruct (lz_decode_grows _ _ _ _ E1) as (d1 & ->). destruct (lz_decode_grows _ _ _ _ E) as (d2 & ED).
    rewrite <- app_assoc in ED. apply app_inv_head in ED. subst data. apply emits_bind; [now apply block_emits|].
    apply IH. rewrite E. now rewrite app_assoc.
Qed.

Lemma blocks_fail cap bs : forall hist good r more data, flat_map block_codes bs = good ++ Reference r :: more ->
  lz_decode cap hist good = Some (hist ++ data) -> bad_ref cap (List.length (hist ++ data)) r ->
  fails_after cap (decompress_blocks bs) hist data (EMsg "dist must fit").
Proof.
  induction bs as [|b bs IH]; intros hist good r more data EC EG B; cbn [flat_map decompress_blocks] in *.
  - destruct good; discriminate.
  - destruct (lz_decode cap hist (block_codes b)) as [h1|] eqn:E1.
    + destruct (lz_decode_grows _ _ _ _ E1) as (d1 & ->).
      (* the bad reference lies behind this block *)
      assert (exists g', good = block_codes b ++ g' /\ flat_map block_codes bs = g' ++ Reference r :: more) as (g' & -> & EC').
      { assert (L : (List.length (block_codes b) <= List.length good)%nat \/ (List.length good < List.length (block_codes b))%nat) by lia.
        destruct L as [L|L].
        - exists (skipn (List.length (block_codes b)) good). assert (F : firstn (List.length (block_codes b)) good = block_codes b).
          { assert (X : firstn (List.length (block_codes b)) (good ++ Reference r :: more) = block_codes b)
              by (rewrite <- EC, firstn_app, Nat.sub_diag, firstn_all; cbn; now rewrite app_nil_r).
            rewrite firstn_app in X. replace (List.length (block_codes b) - List.length good)%nat with 0%nat in X by lia.
            cbn in X. now rewrite app_nil_r in X. }
          split; [rewrite <- F at 1; now rewrite firstn_skipn|]. rewrite <- (firstn_skipn (List.length (block_codes b)) good), F, <- app_assoc in EC.
          now apply app_inv_head in EC.
        - exfalso. assert (X : exists t, block_codes b = good ++ Reference r :: t).
          { exists (skipn (S (List.length good)) (block_codes b)).
            assert (F : firstn (S (List.length good)) (block_codes b) = good ++ [Reference r]).
            { assert (Y : firstn (S (List.length good)) (block_codes b ++ flat_map block_codes bs) = firstn (S (List.length good)) (block_codes b)).
              { rewrite firstn_app. replace (S (List.length good) - List.length (block_codes b))%nat with 0%nat by lia. cbn [firstn]. now rewrite app_nil_r. }
              rewrite EC in Y. rewrite <- Y. rewrite firstn_app. rewrite firstn_all2 by lia.
              replace (S (List.length good) - List.length good)%nat with 1%nat by lia. reflexivity. }
            rewrite <- (firstn_skipn (S (List.length good)) (block_codes b)) at 1. now rewrite F, <- app_assoc. }
          destruct X as (t & X). rewrite X, lz_decode_app, EG in E1. cbn [lz_decode] in E1. unfold bad_ref in B.
          destruct (_ && _) eqn:C in E1; [apply lz_cond in C; contradiction|discriminate]. }
      rewrite lz_decode_app, E1 in EG. destruct (lz_decode_grows _ _ _ _ EG) as (d2 & ED). rewrite <- app_assoc in ED.
      apply app_inv_head in ED. subst data. apply fails_bind; [now apply block_emits|].
      eapply IH; [exact EC'| |]; rewrite <- app_assoc; eassumption.
    + destruct (lz_decode_none _ _ _ E1) as (g1 & r1 & m1 & dd & EB & EG1 & B1). apply fails_bind_l.
      (* both describe the first bad reference *)
      assert (dd = data) as ->.
      { rewrite EB in EC. rewrite <- app_assoc in EC. cbn [app] in EC.
        assert (U : forall g1 g2 h r1 r2 m1 m2 d1 d2, g1 ++ Reference r1 :: m1 = g2 ++ Reference r2 :: m2 ->
           lz_decode cap h g1 = Some (h ++ d1) -> bad_ref cap (List.length (h ++ d1)) r1 ->
           lz_decode cap h g2 = Some (h ++ d2) -> bad_ref cap (List.length (h ++ d2)) r2 -> d1 = d2).
        { clear. induction g1 as [|c g1 IH]; intros [|c2 g2] h r1 r2 m1 m2 d1 d2 E E1 B1 E2 B2; cbn [app] in E.
          - cbn in E1, E2. injection E1 as E1. injection E2 as E2. apply (app_inv_head h). congruence.
          - exfalso. injection E as <- _. cbn [lz_decode] in E1, E2. injection E1 as E1. unfold bad_ref in B1.
            destruct (_ && _) eqn:C in E2; [|discriminate]. apply lz_cond in C. rewrite <- E1 in B1. contradiction.
          - exfalso. injection E as -> _. cbn [lz_decode] in E1, E2. injection E2 as E2. unfold bad_ref in B2.
            destruct (_ && _) eqn:C in E1; [|discriminate]. apply lz_cond in C. rewrite <- E2 in B2. contradiction.
          - injection E as <- E. destruct c as [x|q]; cbn [lz_decode] in E1, E2.
            + destruct (lz_decode_grows _ _ _ _ E1) as (y1 & Y1). destruct (lz_decode_grows _ _ _ _ E2) as (y2 & Y2).
              rewrite <- app_assoc in Y1, Y2. apply app_inv_head in Y1, Y2. subst d1 d2. f_equal.
              eapply (IH _ (h ++ [x])); try eassumption; rewrite <- app_assoc; assumption.
            + destruct (_ && _); [|discriminate].
              destruct (lz_decode_grows _ _ _ _ E1) as (y1 & Y1). destruct (lz_decode_grows _ _ _ _ E2) as (y2 & Y2).
              rewrite lz_copy_new in *. rewrite <- app_assoc in Y1, Y2. apply app_inv_head in Y1, Y2. subst d1 d2. f_equal.
              eapply (IH g2 (h ++ lz_new (N.to_nat (ref_len q)) (N.to_nat (r_dist q)) h) r1 r2 m1 m2 y1 y2 E); rewrite <- app_assoc; assumption. }
        eapply U; eassumption. }
      destruct b as [d0|cs|v cs]; cbn [block_codes decompressed_block] in *.
      * rewrite lz_literals in E1. discriminate.
      * subst cs. eapply codes_fail; eassumption.
      * subst cs. eapply codes_fail; eassumption.
Qed.
