(** Proofs of the properties in P_circ.v *)
From Verif Require Import Base M_bit M_lib M_circles M_parse M_serialise Spec Clients L_bits L_ring.
From Coq Require Import ZArith ZifyBool ZifyNat ZifyN.
Ltac Zify.zify_post_hook ::= Z.div_mod_to_equations.
Local Open Scope N_scope.
Local Open Scope model_scope.

Lemma C24_lemma : forall cap ops, 0 < cap < 65536 ->
  exists b0 b, cb_with_capacity cap = Ok b0 /\ run_circ_ops ops b0 = Ok b
    /\ cb_len b = N.min cap (N.of_nat (List.length (pushed ops)))
    /\ cb_capacity b = cap
    /\ forall debug d, 1 <= d <= cb_len b ->
         cb_get_at_dist debug b d = Ok (nth (N.to_nat d - 1) (rev (pushed ops)) 0).
Proof.
  intros cap ops HC. destruct (ring_new cap HC) as (b0 & E0 & R0). destruct (ring_ops cap ops _ _ R0) as (b & E & R).
  cbn [app] in R. exists b0, b. split; [assumption|]. split; [assumption|]. assert (R1 := R). destruct R as (_ & HL & HI & HV & HN).
  split; [exact HV|]. split; [unfold cb_capacity; rewrite HL, N2Nat.id; apply N.mod_small; lia|].
  intros debug d Hd. unfold cb_len in Hd. rewrite HV in Hd. rewrite (ring_get cap (pushed ops)) by auto. f_equal.
  rewrite rev_nth by lia. f_equal. lia.
Qed.

Lemma window_of_list cap l : 0 < cap < 65536 -> exists b, window_after cap l b.
Proof.
  intro HC. destruct (ring_new cap HC) as (b0 & E0 & R0). destruct (ring_ops cap [CExtend l] _ _ R0) as (b & E & R).
  exists b, b0, [CExtend l]. split; [assumption|]. split; [assumption|]. cbn. now rewrite app_nil_r.
Qed.

Lemma C25_refuted_lemma : exists cap hist b, 0 < cap < 65536 /\ window_after cap hist b
  /\ (exists msg, cb_vec true b = Panic msg)
  /\ cb_len b = 65535 /\ cb_vec false b = Ok [].
Proof.
  destruct (window_of_list 65535 (repeat 0 (N.to_nat 65535)) ltac:(lia)) as (b & W).
  exists 65535, (repeat 0 (N.to_nat 65535)), b. split; [lia|]. split; [assumption|].
  assert (V : cb_valid b = 65535).
  { destruct (window_ring 65535 _ _ ltac:(lia) W) as (_ & _ & _ & V & _). rewrite repeat_length in V. lia. }
  unfold cb_vec, cb_len. rewrite V. cbn [N.eqb]. split; [eexists; reflexivity|]. split; reflexivity.
Qed.

Lemma C25_partial_lemma : forall cap hist b debug, cap < 65536 -> window_after cap hist b -> cb_len b <> 65535 ->
  cb_vec debug b = Ok (lastn (N.to_nat (cb_len b)) hist).
Proof.
  intros cap hist b debug HC W HL. unfold cb_len in *. assert (R := window_ring _ _ _ HC W). unfold cb_vec.
  destruct (N.eqb_spec (cb_valid b) 65535); [contradiction|]. apply (ring_vec_loop cap); [assumption|].
  destruct R as (_ & _ & _ & V & _). lia.
Qed.

Lemma C26_lemma : forall cap hist b dist len out, cap < 65536 -> window_after cap hist b ->
  (~ (1 <= dist <= cb_len b) -> cb_copy dist len (b, out) = (Err (EMsg "dist must fit"), (b, out)))
  /\ (1 <= dist <= cb_len b -> room out = None ->
      exists new b', cb_copy dist len (b, out) = (Ok tt, (b', mkSink (written out ++ new) None))
        /\ cb_extend b new = Ok b'
        /\ N.of_nat (List.length new) = len
        /\ forall i, (i < List.length new)%nat ->
             nth_error (hist ++ new) (List.length hist + i)
             = nth_error (hist ++ new) (List.length hist + i - N.to_nat dist)).
Proof.
  intros cap hist b dist len out HC W. assert (R := window_ring _ _ _ HC W).
  assert (V : cb_len b = N.min cap (N.of_nat (List.length hist))) by apply R. rewrite V. split.
  - intro H. now apply (copy_fails cap hist).
  - intros H HR. destruct (copy_emits cap hist dist len H b out R) as (b' & E & X).
    exists (lz_new (N.to_nat len) (N.to_nat dist) hist), b'. unfold write_all in E, X. rewrite HR in E, X. cbn [fst snd] in E, X.
    split; [exact E|]. split; [now apply X|]. split; [rewrite lz_new_length; lia|]. intros i Hi. rewrite lz_new_length in Hi.
    apply lz_new_spec; lia.
Qed.

Lemma window_extended cap hist b data b' : window_after cap hist b -> cb_extend b data = Ok b' -> window_after cap (hist ++ data) b'.
Proof.
  intros (b0 & ops & E0 & E & ->) EX. exists b0, (ops ++ [CExtend data]). split; [assumption|].
  unfold pushed. rewrite flat_map_app. cbn [flat_map]. rewrite app_nil_r. split; [|reflexivity].
  assert (X : forall o1 o2 c, run_circ_ops (o1 ++ o2) c = obind (run_circ_ops o1 c) (run_circ_ops o2)).
  { induction o1 as [|o o1 IH]; intros o2 c; cbn [app run_circ_ops obind]; [reflexivity|]. destruct (run_circ_op o c); cbn [obind]; auto. }
  rewrite X, E. cbn [obind run_circ_ops run_circ_op]. rewrite EX. reflexivity.
Qed.

Lemma C27_lemma : forall cap hist b codes data, cap < 65536 -> window_after cap hist b ->
  lz_decode cap hist codes = Some (hist ++ data) ->
  exists b', decompressed_codes codes (b, new_sink) = (Ok tt, (b', mkSink data None))
    /\ window_after cap (hist ++ data) b'.
Proof.
  intros cap hist b codes data HC W E. destruct (codes_emit _ _ _ _ E b new_sink (window_ring _ _ _ HC W)) as (b' & E' & X).
  exists b'. split; [exact E'|]. eapply window_extended; [exact W|]. now apply X.
Qed.

Lemma C27_lemma_stream : forall blocks data, encodes [] data (flat_map block_codes blocks) ->
  exists b0 b', cb_new = Ok b0
    /\ decompress_blocks blocks (b0, new_sink) = (Ok tt, (b', mkSink data None))
    /\ window_after 32768 data b'.
Proof.
  intros blocks data E. unfold encodes in E. destruct (ring_new 32768 ltac:(lia)) as (b0 & E0 & R0).
  destruct (blocks_emit _ _ _ _ E b0 new_sink R0) as (b' & E' & X). exists b0, b'. split; [exact E0|]. split; [exact E'|].
  apply (window_extended 32768 [] b0); [|now apply X]. exists b0, []. auto.
Qed.

Lemma C28_lemma_total : forall cap hist b out blocks, cap < 65536 -> window_after cap hist b ->
  returns (fst (decompress_blocks blocks (b, out)))
  /\ (room out = None ->
      (fst (decompress_blocks blocks (b, out)) = Err (EMsg "dist must fit")
       <-> lz_decode cap hist (flat_map block_codes blocks) = None)
      /\ (fst (decompress_blocks blocks (b, out)) = Ok tt
          <-> lz_decode cap hist (flat_map block_codes blocks) <> None)).
Proof.
  intros cap hist b out blocks HC W. assert (R := window_ring _ _ _ HC W).
  destruct (lz_decode cap hist (flat_map block_codes blocks)) as [h|] eqn:E.
  - destruct (lz_decode_grows _ _ _ _ E) as (data & ->). destruct (blocks_emit _ _ _ _ E b out R) as (b' & -> & _). cbn [fst].
    split; [destruct (write_all_or data out) as [->| ->]; exact I|]. intro HR. unfold write_all. rewrite HR. cbn [fst].
    repeat split; discriminate.
  - destruct (lz_decode_none _ _ _ E) as (good & r & more & data & EC & EG & B).
    destruct (blocks_fail _ _ _ _ _ _ _ EC EG B b out R) as (b' & ->). cbn [fst].
    split; [destruct (write_all_or data out) as [->| ->]; exact I|]. intro HR. unfold write_all. rewrite HR. cbn [fst].
    repeat split; try discriminate. now intros [].
Qed.

Lemma C28_lemma_blocks : forall cap hist b out blocks, cap < 65536 -> window_after cap hist b ->
  let split := decompress_blocks blocks (b, out) in
  let whole := decompressed_codes (flat_map block_codes blocks) (b, out) in
  fst split = fst whole /\ snd (snd split) = snd (snd whole)
  /\ (fst split = Ok tt -> fst (snd split) = fst (snd whole)).
Proof.
  intros cap hist b out blocks HC W. assert (R := window_ring _ _ _ HC W). cbn zeta.
  destruct (lz_decode cap hist (flat_map block_codes blocks)) as [h|] eqn:E.
  - destruct (lz_decode_grows _ _ _ _ E) as (data & ->). destruct (blocks_emit _ _ _ _ E b out R) as (b1 & -> & X1).
    destruct (codes_emit _ _ _ _ E b out R) as (b2 & -> & X2). cbn [fst snd]. split; [reflexivity|]. split; [reflexivity|].
    intro O. specialize (X1 O). specialize (X2 O). congruence.
  - destruct (lz_decode_none _ _ _ E) as (good & r & more & data & EC & EG & B).
    destruct (blocks_fail _ _ _ _ _ _ _ EC EG B b out R) as (b1 & ->). rewrite EC.
    destruct (codes_fail _ _ _ more _ _ EG B b out R) as (b2 & ->). cbn [fst snd]. split; [reflexivity|]. split; [reflexivity|].
    destruct (write_all_or data out) as [->| ->]; discriminate.
Qed.

Lemma C29_lemma : forall cap hist b blocks data k, cap < 65536 -> window_after cap hist b ->
  lz_decode cap hist (flat_map block_codes blocks) = Some (hist ++ data) ->
  let '(o, (_, out)) := decompress_blocks blocks (b, sink_with (Some k)) in
  written out = firstn k data
  /\ (if Nat.leb (List.length data) k then o = Ok tt else o = Err (EIo OtherIo)).
Proof.
  intros cap hist b blocks data k HC W E. destruct (blocks_emit _ _ _ _ E b (sink_with (Some k)) (window_ring _ _ _ HC W)) as (b' & -> & _).
  unfold write_all, sink_with. cbn [room written app]. destruct (Nat.leb_spec (List.length data) k); cbn [fst snd written]; [|auto].
  split; [now rewrite firstn_all2|reflexivity].
Qed.

Lemma C29_lemma_bad : forall cap hist b blocks k, cap < 65536 -> window_after cap hist b ->
  lz_decode cap hist (flat_map block_codes blocks) = None ->
  let '(o, (_, out)) := decompress_blocks blocks (b, sink_with (Some k)) in
  exists good r more data, flat_map block_codes blocks = good ++ Reference r :: more
       /\ lz_decode cap hist good = Some (hist ++ data)
       /\ ~ (1 <= r_dist r <= N.min cap (N.of_nat (List.length (hist ++ data))))
       /\ written out = firstn k data
       /\ o = Err (if Nat.leb (List.length data) k then EMsg "dist must fit" else EIo OtherIo).
Proof.
  intros cap hist b blocks k HC W E. destruct (lz_decode_none _ _ _ E) as (good & r & more & data & EC & EG & B).
  destruct (blocks_fail _ _ _ _ _ _ _ EC EG B b (sink_with (Some k)) (window_ring _ _ _ HC W)) as (b' & ->).
  exists good, r, more, data.
  split; [exact EC|]. split; [exact EG|]. split; [exact B|].
  unfold write_all, sink_with. cbn [room written app]. destruct (Nat.leb_spec (List.length data) k); cbn [fst snd written]; [|auto].
  split; [now rewrite firstn_all2|reflexivity].
Qed.

Lemma C55_refuted_lemma : forall x, exists msg, cb_push cb_default x = Panic msg.
Proof. intro x. eexists. reflexivity. Qed.

Lemma C55_default_lemma : forall debug xs dist len x out,
  cb_len cb_default = 0 /\ cb_capacity cb_default = 0 /\ cb_vec debug cb_default = Ok []
  /\ (exists msg, cb_push cb_default x = Panic msg)
  /\ (xs = [] -> cb_extend cb_default xs = Ok cb_default)
  /\ (xs <> [] -> exists msg, cb_extend cb_default xs = Panic msg)
  /\ cb_copy dist len (cb_default, out) = (Err (EMsg "dist must fit"), (cb_default, out))
  /\ (exists msg, cb_get_at_dist debug cb_default dist = Panic msg).
Proof.
  intros debug xs dist len x out. split; [reflexivity|]. split; [reflexivity|]. split; [reflexivity|].
  split; [apply C55_refuted_lemma|]. split; [now intros ->|].
  split; [intro H; destruct xs as [|y ys]; [now elim H|]; eexists; reflexivity|].
  split.
  - unfold cb_copy. cbn [fst cb_default cb_valid].
    destruct (N.ltb_spec 0 dist); cbn [andb]; [|reflexivity]. destruct (N.leb_spec dist 0); [lia|reflexivity].
  - unfold cb_get_at_dist. destruct (debug && _); [eexists; reflexivity|]. cbn [cb_default cb_idx cb_data List.length Nat.add].
    destruct (N.to_nat dist); eexists; reflexivity.
Qed.

Lemma C55_partial_lemma : forall cap ops x, 0 < cap < 65536 ->
  exists b0 b b', cb_with_capacity cap = Ok b0 /\ run_circ_ops ops b0 = Ok b /\ cb_push b x = Ok b'.
Proof.
  intros cap ops x HC. destruct (ring_new cap HC) as (b0 & E0 & R0). destruct (ring_ops cap ops _ _ R0) as (b & E & R).
  destruct (ring_push _ _ _ x R) as (b' & E' & _). eauto 6.
Qed.

Lemma C55_partial_lemma_new : forall ops x,
  exists b0 b b', cb_new = Ok b0 /\ run_circ_ops ops b0 = Ok b /\ cb_push b x = Ok b'.
Proof. intros ops x. apply (C55_partial_lemma 32768). lia. Qed.

Lemma C25_exactly_lemma : forall cap hist b debug, 0 < cap < 65536 -> window_after cap hist b ->
  (cb_vec debug b = Ok (lastn (N.to_nat cap) hist) <-> cb_len b <> 65535)
  /\ (cb_len b = 65535 <-> cap = 65535 /\ (N.to_nat 65535 <= List.length hist)%nat).
Proof.
  intros cap hist b debug HC W. destruct (window_ring cap _ _ ltac:(lia) W) as (_ & _ & _ & V & _).
  split.
  - split.
    + intros E F. unfold cb_vec in E. unfold cb_len in F. rewrite F in E. rewrite N.eqb_refl in E.
      destruct debug; [discriminate|]. apply (f_equal (fun o => match o with Ok l => List.length l | _ => O end)) in E.
      cbv beta iota in E. unfold lastn in E. rewrite skipn_length in E. cbn [List.length] in E. rewrite F in V. lia.
    + intro NE. rewrite (C25_partial_lemma cap hist b debug) by (assumption || lia). f_equal. unfold lastn. f_equal.
      unfold cb_len. rewrite V. lia.
  - unfold cb_len. rewrite V. lia.
Qed.
