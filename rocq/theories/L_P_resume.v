(** Proofs of C106. *)
From Verif Require Import Base M_bit M_lib M_circles M_parse M_serialise Spec Clients L_bits L_ring L_P_circ L_P_e2e.
From Coq Require Import ZArith ZifyBool ZifyNat ZifyN.
Ltac Zify.zify_post_hook ::= Z.div_mod_to_equations.
Local Open Scope N_scope.
Local Open Scope model_scope.

Lemma lastn_size {A} n (l : list A) : List.length (lastn n l) = Nat.min n (List.length l).
Proof. unfold lastn. rewrite skipn_length. lia. Qed.
Lemma lastn_split {A} n (l : list A) : exists pre, l = pre ++ lastn n l /\ (pre = [] \/ List.length (lastn n l) = n).
Proof.
  exists (firstn (List.length l - n) l). split; [symmetry; apply firstn_skipn|]. rewrite lastn_size.
  destruct (Nat.le_gt_cases n (List.length l)); [right; lia|left]. replace (List.length l - n)%nat with O by lia. reflexivity.
Qed.
Lemma decode_lastn cap hist cs : exists pre, hist = pre ++ lastn (N.to_nat cap) hist /\ lz_decode cap hist cs = option_map (app pre) (lz_decode cap (lastn (N.to_nat cap) hist) cs).
Proof.
  destruct (lastn_split (N.to_nat cap) hist) as (pre & E & H). exists pre. split; [exact E|]. rewrite E at 1. destruct H as [->|H].
  - cbn [app]. destruct (lz_decode _ _ _); reflexivity.
  - apply lz_decode_window. lia.
Qed.
Lemma same_decode cap hist hist' cs data : lastn (N.to_nat cap) hist = lastn (N.to_nat cap) hist' ->
  lz_decode cap hist cs = Some (hist ++ data) -> lz_decode cap hist' cs = Some (hist' ++ data).
Proof.
  intros L E. destruct (decode_lastn cap hist cs) as (p & EH & X). destruct (decode_lastn cap hist' cs) as (p' & EH' & X'). rewrite L in EH, X.
  set (w := lastn (N.to_nat cap) hist') in *. clearbody w. rewrite E in X. destruct (lz_decode cap w cs) as [r|] eqn:R; [|discriminate X]. cbn [option_map] in X, X'.
  assert (Y : hist ++ data = p ++ r) by congruence. rewrite EH, <- app_assoc in Y. apply app_inv_head in Y. rewrite X'. f_equal. rewrite EH', <- app_assoc. f_equal. symmetry. exact Y.
Qed.

Definition same_results (cap : N) (b b' : circ) : Prop := forall blocks out,
  fst (decompress_blocks blocks (b, out)) = fst (decompress_blocks blocks (b', out))
  /\ snd (snd (decompress_blocks blocks (b, out))) = snd (snd (decompress_blocks blocks (b', out))).

Lemma window_same cap hist hist' b b' : cap < 65536 -> window_after cap hist b -> window_after cap hist' b' ->
  lastn (N.to_nat cap) hist = lastn (N.to_nat cap) hist' -> same_results cap b b'.
Proof.
  intros HC W W' L blocks out. assert (R := window_ring _ _ _ HC W). assert (R' := window_ring _ _ _ HC W').
  destruct (lz_decode cap hist (flat_map block_codes blocks)) as [h|] eqn:E.
  - destruct (lz_decode_grows _ _ _ _ E) as (data & ->). assert (E' := same_decode _ _ _ _ _ L E).
    destruct (blocks_emit _ _ _ _ E b out R) as (b1 & -> & _). destruct (blocks_emit _ _ _ _ E' b' out R') as (b2 & -> & _). auto.
  - destruct (lz_decode_none _ _ _ E) as (good & r & more & data & EC & EG & B). assert (EG' := same_decode _ _ _ _ _ L EG).
    destruct (blocks_fail _ _ _ _ _ _ _ EC EG B b out R) as (b1 & ->).
    destruct (blocks_fail _ _ _ _ _ _ _ EC EG' ltac:(unfold bad_ref in *; apply (f_equal (@List.length _)) in L; rewrite !lastn_size in L; rewrite app_length in *; lia) b' out R') as (b2 & ->). auto.
Qed.

Definition probe (d : N) : list Block := [FixedHuffman [Reference (mkRef d 0)]].
Lemma probe_out cap hist b d : cap < 65536 -> window_after cap hist b ->
  (1 <= d <= N.min cap (N.of_nat (List.length hist)) -> exists x y b', decompress_blocks (probe d) (b, new_sink) = (Ok tt, (b', mkSink [nth (List.length hist - N.to_nat d) hist 0; x; y] None)))
  /\ (~ (1 <= d <= N.min cap (N.of_nat (List.length hist))) -> fst (decompress_blocks (probe d) (b, new_sink)) <> Ok tt).
Proof.
  intros HC W. assert (R := window_ring _ _ _ HC W). split; intro H.
  - assert (E : lz_decode cap hist (flat_map block_codes (probe d)) = Some (hist ++ lz_new 3 (N.to_nat d) hist)).
    { cbn [probe flat_map block_codes app lz_decode r_dist]. replace ((1 <=? d) && (d <=? cap) && (d <=? N.of_nat (List.length hist))) with true by lia. change (N.to_nat (ref_len (mkRef d 0))) with 3%nat. f_equal. apply lz_copy_new. }
    destruct (blocks_emit _ _ _ _ E b new_sink R) as (b1 & E1 & _). rewrite E1. cbn [lz_new]. do 3 eexists. reflexivity.
  - destruct (C28_lemma_total cap hist b new_sink (probe d) HC W) as [_ X]. destruct (X eq_refl) as [_ Y]. rewrite Y. cbn [probe flat_map block_codes app lz_decode r_dist].
    replace ((1 <=? d) && (d <=? cap) && (d <=? N.of_nat (List.length hist))) with false by lia. tauto.
Qed.
Lemma window_needed cap hist hist' b b' : cap < 65536 -> window_after cap hist b -> window_after cap hist' b' ->
  same_results cap b b' -> lastn (N.to_nat cap) hist = lastn (N.to_nat cap) hist'.
Proof.
  intros HC W W' S.
  assert (L : N.min cap (N.of_nat (List.length hist)) = N.min cap (N.of_nat (List.length hist'))).
  { assert (P : forall d, 1 <= d <= N.min cap (N.of_nat (List.length hist)) <-> 1 <= d <= N.min cap (N.of_nat (List.length hist'))).
    { intro d. destruct (probe_out cap hist b d HC W) as [A B]. destruct (probe_out cap hist' b' d HC W') as [A' B']. destruct (S (probe d) new_sink) as [S1 _].
      set (P := 1 <= d <= N.min cap (N.of_nat (List.length hist))) in *. set (P' := 1 <= d <= N.min cap (N.of_nat (List.length hist'))) in *.
      assert (D : P \/ ~ P) by (unfold P; lia). assert (D' : P' \/ ~ P') by (unfold P'; lia). clearbody P P'.
      destruct D as [D|D], D' as [D'|D']; try tauto; exfalso.
      - destruct (A D) as (x & y & z & E). apply (B' D'). rewrite <- S1, E. reflexivity.
      - destruct (A' D') as (x & y & z & E). apply (B D). rewrite S1, E. reflexivity. }
    set (m := N.min cap (N.of_nat (List.length hist))) in *. set (m' := N.min cap (N.of_nat (List.length hist'))) in *. assert (X := P m). assert (Y := P m'). lia. }
  apply (nth_ext _ _ 0 0); [rewrite !lastn_size; lia|]. intros i Hi. rewrite lastn_size in Hi.
  set (d := N.min cap (N.of_nat (List.length hist)) - N.of_nat i).
  destruct (probe_out cap hist b d HC W) as [A _]. destruct (probe_out cap hist' b' d HC W') as [A' _]. destruct (S (probe d) new_sink) as [_ S2].
  destruct (A ltac:(unfold d; lia)) as (x & y & z & E). destruct (A' ltac:(unfold d; lia)) as (x' & y' & z' & E'). rewrite E, E' in S2. cbn [snd] in S2.
  assert (Q : nth (List.length hist - N.to_nat d) hist 0 = nth (List.length hist' - N.to_nat d) hist' 0) by congruence.
  assert (K : forall l : list N, nth i (lastn (N.to_nat cap) l) 0 = nth (List.length l - N.to_nat cap + i) l 0).
  { intro l. unfold lastn. set (k := (List.length l - N.to_nat cap)%nat). assert (KL : (k <= List.length l)%nat) by (unfold k; lia). clearbody k.
    transitivity (nth (k + i) (firstn k l ++ skipn k l) 0); [|now rewrite firstn_skipn]. rewrite app_nth2; rewrite firstn_length; [|lia]. f_equal. lia. }
  rewrite !K. replace (List.length hist - N.to_nat cap + i)%nat with (List.length hist - N.to_nat d)%nat by (unfold d; lia).
  replace (List.length hist' - N.to_nat cap + i)%nat with (List.length hist' - N.to_nat d)%nat by (unfold d; lia). exact Q.
Qed.

Lemma C106_lemma_window : forall cap hist hist' b b', cap < 65536 -> window_after cap hist b -> window_after cap hist' b' ->
  (lastn (N.to_nat cap) hist = lastn (N.to_nat cap) hist'
   <-> forall blocks out,
         fst (decompress_blocks blocks (b, out)) = fst (decompress_blocks blocks (b', out))
         /\ snd (snd (decompress_blocks blocks (b, out))) = snd (snd (decompress_blocks blocks (b', out)))).
Proof.
  intros cap hist hist' b b' HC W W'. split; [apply (window_same cap hist hist' b b' HC W W')|apply (window_needed cap hist hist' b b' HC W W')].
Qed.

Lemma lastn_lastn {A} n (l : list A) : lastn n (lastn n l) = lastn n l.
Proof. unfold lastn at 1. rewrite lastn_size. replace (Nat.min n (List.length l) - n)%nat with O by lia. reflexivity. Qed.

Lemma resume cap hist b debug : 0 < cap < 65535 -> window_after cap hist b ->
  exists snapshot b0 b1, cb_vec debug b = Ok snapshot /\ (List.length snapshot <= N.to_nat cap)%nat /\ cb_with_capacity cap = Ok b0 /\ cb_extend b0 snapshot = Ok b1
    /\ window_after cap snapshot b1 /\ snapshot = lastn (N.to_nat cap) hist.
Proof.
  intros HC W. assert (R := window_ring _ _ _ (ltac:(lia) : cap < 65536) W). assert (V : cb_len b = N.min cap (N.of_nat (List.length hist))) by apply R.
  assert (E := C25_partial_lemma cap hist b debug ltac:(lia) W ltac:(lia)). exists (lastn (N.to_nat cap) hist).
  replace (lastn (N.to_nat (cb_len b)) hist) with (lastn (N.to_nat cap) hist) in E by (unfold lastn; f_equal; lia).
  destruct (ring_new cap ltac:(lia)) as (b0 & E0 & R0). destruct (ring_extend cap (lastn (N.to_nat cap) hist) _ _ R0) as (b1 & E1 & R1). exists b0, b1.
  split; [exact E|]. split; [rewrite lastn_size; lia|]. split; [exact E0|]. split; [exact E1|]. split; [|reflexivity].
  exists b0, [CExtend (lastn (N.to_nat cap) hist)]. split; [exact E0|]. split; [cbn [run_circ_ops run_circ_op]; rewrite E1; reflexivity|]. cbn [pushed flat_map]. now rewrite app_nil_r.
Qed.

Lemma C106_lemma_resume : forall cap hist b debug, 0 < cap < 65535 -> window_after cap hist b ->
  exists snapshot b0 b1, cb_vec debug b = Ok snapshot /\ cb_with_capacity cap = Ok b0 /\ cb_extend b0 snapshot = Ok b1
    /\ forall blocks out,
         fst (decompress_blocks blocks (b1, out)) = fst (decompress_blocks blocks (b, out))
         /\ snd (snd (decompress_blocks blocks (b1, out))) = snd (snd (decompress_blocks blocks (b, out))).
Proof.
  intros cap hist b debug HC W. destruct (resume cap hist b debug HC W) as (s & b0 & b1 & E & _ & E0 & E1 & W1 & ES). exists s, b0, b1.
  split; [exact E|]. split; [exact E0|]. split; [exact E1|]. apply (window_same cap s hist b1 b ltac:(lia) W1 W). rewrite ES. apply lastn_lastn.
Qed.

Lemma C106_lemma_stream : forall blocks more data, encodes [] data (flat_map block_codes (blocks ++ more)) ->
  exists before after fresh b snapshot b1 b2, data = before ++ after /\ cb_new = Ok fresh
    /\ decompress_blocks blocks (fresh, new_sink) = (Ok tt, (b, mkSink before None))
    /\ cb_vec true b = Ok snapshot /\ (List.length snapshot <= N.to_nat 32768)%nat
    /\ cb_extend fresh snapshot = Ok b1
    /\ decompress_blocks more (b1, new_sink) = (Ok tt, (b2, mkSink after None)).
Proof.
  intros blocks more data E. unfold encodes in E. rewrite flat_map_app, lz_decode_app in E.
  destruct (lz_decode 32768 [] (flat_map block_codes blocks)) as [before|] eqn:EB; [|discriminate].
  destruct (lz_decode_grows _ _ _ _ E) as (after & EA). cbn [app] in EA. rewrite EA in E.
  destruct (C27_lemma_stream blocks before EB) as (fresh & b & E0 & E1 & W).
  destruct (resume 32768 before b true ltac:(lia) W) as (s & f2 & b1 & EV & SL & EF & EX & W1 & ES). change (cb_new = Ok f2) in EF. rewrite E0 in EF. injection EF as <-.
  assert (E' := same_decode 32768 before s _ after ltac:(rewrite ES; symmetry; apply lastn_lastn) E).
  destruct (blocks_emit _ _ _ _ E' b1 new_sink (window_ring 32768 _ _ ltac:(reflexivity) W1)) as (b2 & E2 & _).
  exists before, after, fresh, b, s, b1, b2. repeat (split; [eassumption|]). exact E2.
Qed.
