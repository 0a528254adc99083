(** Proofs of the bit-level properties; the statements are repeated, with comments, in P_bit.v. *)
From Verif Require Import Base M_bit M_lib M_parse Spec Clients L_bits L_writer L_reader L_bitprops L_stored.
From Coq Require Import ZArith ZifyBool ZifyNat ZifyN.
Ltac Zify.zify_post_hook ::= Z.div_mod_to_equations.
Local Open Scope N_scope.
Local Open Scope model_scope.

Lemma C01_lemma : forall (bits : list bool) (e : errkind),
  exists (w : bit_writer) (bytes : list N) (k : nat) (r : bit_reader),
    (write_bits bits ;;; bw_align) (bw_new new_sink) = (Ok tt, w)
    /\ bw_into_inner w = Ok (mkSink bytes None)
    /\ (k < 8)%nat
    /\ List.length bytes = ((List.length bits + 7) / 8)%nat
    /\ read_bits (List.length bits + k) (br_new (mkSource bytes e)) = (Ok (bits ++ repeat false k), r)
    /\ rest (br_inner r) = [].
Proof.
  intros bits e. destruct (pads_exists (List.length bits)) as (k & Hk).
  destruct (writes_bind [] _ _ bits (repeat false k) (writes_write_bits bits []) (writes_align _ _ Hk)
              (bw_new new_sink) wst_new) as (w & E & W).
  cbn [app] in W.
  assert (LM : (List.length (bits ++ repeat false k) mod 8 = 0)%nat).
  { rewrite app_length, repeat_length. apply Hk. }
  destruct (wst_into_inner _ _ W LM) as ([bytes rm] & EI & HB & HO).
  assert (rm = None) as ->.
  { destruct W as (Hr & _). unfold bw_into_inner in EI. destruct (Nat.eqb _ _); [|discriminate].
    inversion EI as [EE]. now rewrite EE in Hr. }
  cbn [written] in *.
  assert (LB : List.length (bits ++ repeat false k) = (8 * List.length bytes)%nat).
  { rewrite <- HB. apply bits_of_bytes_length. }
  assert (R0 := Rbr_new (mkSource bytes e) HO). cbn [rest at_end] in R0.
  rewrite HB in R0.
  destruct (read_bits_spec e (List.length bits + k) _ _ R0) as (r & ER & RR).
  { rewrite app_length, repeat_length. lia. }
  rewrite firstn_all2 in ER by (rewrite app_length, repeat_length; lia).
  exists w, bytes, k, r. repeat split; auto.
  - apply Hk.
  - rewrite app_length, repeat_length in LB, LM. destruct Hk. lia.
  - assert (LI := Rbr_inner_length _ _ _ RR).
    rewrite skipn_length, app_length, repeat_length in LI.
    destruct (rest (br_inner r)); [reflexivity|]. cbn [List.length] in LI.
    replace (List.length bits + k - (List.length bits + k))%nat with 0%nat in LI by lia. discriminate.
Qed.

Lemma C02_lemma : forall ops : list write_op,
  Forall write_op_ok ops ->
  let stream := fold_left after_write_op ops [] in
  let whole := (8 * (List.length stream / 8))%nat in
  exists w, run_write_ops ops (bw_new new_sink) = (Ok tt, w)
            /\ written (bw_inner w) = pack (firstn whole stream)
            /\ bv_to_list (bw_current w) = Ok (skipn whole stream).
Proof.
  intros ops H stream whole.
  destruct (run_write_ops_spec ops H [] _ wst_new) as (w & E & W). fold stream in W.
  exists w. split; [exact E|]. destruct W as (_ & pend & HO & HC & HL & HS).
  assert (LS : List.length stream = (8 * List.length (written (bw_inner w)) + List.length pend)%nat)
    by (rewrite HS, app_length, bits_of_bytes_length; reflexivity).
  assert (LW : whole = (8 * List.length (written (bw_inner w)))%nat) by (unfold whole; lia).
  rewrite HS, LW. rewrite HC, bv_to_list_spec. split.
  - rewrite firstn_app, bits_of_bytes_length, Nat.sub_diag, firstn_O, app_nil_r.
    rewrite firstn_all2 by (rewrite bits_of_bytes_length; lia). now rewrite pack_bits_of_bytes.
  - rewrite skipn_app, bits_of_bytes_length, Nat.sub_diag.
    rewrite skipn_all2 by (rewrite bits_of_bytes_length; lia). reflexivity.
Qed.

Lemma C03_refuted_lemma : exists (ops : list vec_op) (pops : list (option bool)) (v : bitvec) (i : nat) (b : bool),
  run_vec_ops ops bv_new = Ok (pops, v)
  /\ nth_error (snd (list_vec_ops ops [])) i = Some b
  /\ bv_get v i = Ok (negb b).
Proof.
  exists [VPush true; VPush true; VPop; VPush false]. eexists. eexists. exists 1%nat, false.
  split; [vm_compute; reflexivity|]. split; reflexivity.
Qed.

Lemma C03_partial_lemma : forall (pushes : list bool) (ops : list vec_op),
  Forall no_false ops ->
  let history := map VPush pushes ++ ops in
  let '(pops, l) := list_vec_ops history [] in
  exists v, run_vec_ops history bv_new = Ok (pops, v)
    /\ bv_len v = List.length l
    /\ bv_to_list v = Ok l
    /\ (forall i b, nth_error l i = Some b -> bv_get v i = Ok b).
Proof.
  intros pushes ops H history.
  destruct (run_vec_pushes pushes ops [] []) as [E1 E2]. fold history in E1, E2. cbn [app] in *.
  destruct (run_vec_ops_repr ops H _ _ (repr_bitvec_of pushes)) as (v & E & R).
  destruct (list_vec_ops history []) as [pops l] eqn:EL. rewrite <- E2 in *. cbn [fst snd] in *.
  exists v. rewrite bv_new_spec, E1, E. split; [reflexivity|]. assert (HL := proj1 R). split; [exact HL|]. split.
  - unfold bv_to_list, bv_iter. rewrite HL. rewrite (repr_si_collect _ _ _ R) by lia. reflexivity.
  - intros. now apply (repr_get _ l).
Qed.

Lemma C04_lemma_read : forall (bytes : list N) (e : errkind) (off : nat) (n : N) l r,
  bytes_ok bytes -> n <= 16 ->
  read_bits off (br_new (mkSource bytes e)) = (Ok l, r) ->
  let next := skipn off (bits_of_bytes bytes) in
  if Nat.leb (N.to_nat n) (List.length next)
  then exists r', br_read_part n r = (Ok (lsb_value (firstn (N.to_nat n) next)), r')
  else exists r', br_read_part n r = (Err (EIo e), r').
Proof.
  intros bytes e off n l r HB Hn E next.
  destruct (read_bits_ok _ _ _ _ _ _ (Rbr_new (mkSource bytes e) HB) E) as (HL & _ & R).
  cbn [rest at_end] in R. fold next in R.
  destruct (br_read_part_spec e n next r Hn R) as (r' & E' & _).
  destruct (Nat.leb _ _); eauto.
Qed.

Lemma C04_lemma_roundtrip : forall (before after : list bool) (n v : N) (e : errkind),
  n <= 16 -> v < 2 ^ n ->
  exists w s r0 r,
    (write_bits before ;;; bw_write_bits_val n v ;;; write_bits after ;;; bw_align) (bw_new new_sink)
      = (Ok tt, w)
    /\ bw_into_inner w = Ok s
    /\ read_bits (List.length before) (br_new (mkSource (written s) e)) = (Ok before, r0)
    /\ br_read_part n r0 = (Ok v, r).
Proof.
  intros before after n v e Hn Hv.
  set (f := lsb (N.to_nat n) v).
  destruct (pads_exists (List.length (((before ++ f) ++ after)))) as (k & Hk).
  assert (WW : writes [] (write_bits before ;;; bw_write_bits_val n v ;;; write_bits after ;;; bw_align)
                 (before ++ f ++ after ++ repeat false k)).
  { apply writes_bind; [apply writes_write_bits|].
    apply writes_bind; [now apply writes_bits_val|].
    apply writes_bind; [apply writes_write_bits|]. now apply writes_align. }
  destruct (WW _ wst_new) as (w & E & W).
  assert (LM : (List.length (before ++ f ++ after ++ repeat false k) mod 8 = 0)%nat).
  { destruct Hk as [_ Hk]. rewrite !app_length in *. rewrite repeat_length. lia. }
  destruct (wst_into_inner _ _ W LM) as (s & EI & HB & HO).
  assert (R0 := Rbr_new (mkSource (written s) e) HO). cbn [rest at_end] in R0. rewrite HB in R0.
  destruct (read_bits_spec e (List.length before) _ _ R0) as (r0 & ER & RR).
  { cbn [app]. rewrite !app_length. lia. }
  cbn [app] in ER, RR.
  rewrite firstn_app, firstn_all, Nat.sub_diag, firstn_O, app_nil_r in ER.
  rewrite skipn_app, skipn_all, Nat.sub_diag in RR. cbn [app skipn] in RR.
  destruct (br_read_part_spec e n _ r0 Hn RR) as (r & EP & _).
  exists w, s, r0, r. split; [exact E|]. split; [exact EI|]. split; [exact ER|].
  rewrite EP. assert (LF : List.length f = N.to_nat n) by apply lsb_length.
  rewrite app_length. replace (Nat.leb _ _) with true by (symmetry; apply Nat.leb_le; lia).
  rewrite <- LF, firstn_app, firstn_all, Nat.sub_diag, firstn_O, app_nil_r.
  unfold f. rewrite lsb_value_lsb, N2Nat.id. now rewrite N.mod_small.
Qed.

Lemma C05_lemma : forall (bytes : list N) (e : errkind) (n : nat) l r,
  bytes_ok bytes ->
  read_bits n (br_new (mkSource bytes e)) = (Ok l, r) ->
  let pos := (8 * ((n + 7) / 8))%nat in
  let padding := skipn n (firstn pos (bits_of_bytes bytes)) in
  if forallb negb padding
  then exists r', br_align r = (Ok tt, r')
         /\ rest (br_inner r') = rest (br_inner r)
         /\ forall m, (m <= 8 * List.length bytes - pos)%nat ->
              exists r'', read_bits m r' = (Ok (firstn m (skipn pos (bits_of_bytes bytes))), r'')
  else exists r', br_align r = (Err (EMsg "padding bits should always be empty"), r')
         /\ rest (br_inner r') = rest (br_inner r).
Proof.
  intros bytes e n l r HB E pos padding.
  destruct (read_bits_ok _ _ _ _ _ _ (Rbr_new (mkSource bytes e) HB) E) as (HL & _ & R).
  cbn [rest at_end] in R, HL.
  set (bs := bits_of_bytes bytes) in *.
  assert (LB : List.length bs = (8 * List.length bytes)%nat) by apply bits_of_bytes_length.
  destruct (br_align_spec _ _ _ R) as [A1 A2].
  assert (LN : (List.length (skipn n bs) mod 8 = pos - n)%nat) by (rewrite skipn_length; unfold pos; lia).
  assert (EP : firstn (List.length (skipn n bs) mod 8) (skipn n bs) = padding).
  { unfold padding. rewrite LN. rewrite firstn_skipn_comm. do 2 f_equal. unfold pos. lia. }
  rewrite EP in A1, A2.
  assert (PF : forall p, forallb negb p = true <-> p = repeat false (List.length p)).
  { induction p as [|[] p IH]; cbn; [tauto| |].
    - split; discriminate.
    - rewrite IH. split; [congruence|intro HH; now injection HH]. }
  assert (RS := Rbr_rest_skip e bytes bs r n HB eq_refl R HL).
  destruct (forallb negb padding) eqn:EF.
  - apply PF in EF. destruct (A1 EF) as (r' & EA & RA). rewrite LN in RA.
    rewrite skipn_skipn in RA. replace (pos - n + n)%nat with pos in RA by (unfold pos; lia).
    exists r'. split; [exact EA|]. split.
    + rewrite RS. rewrite (Rbr_rest_skip e bytes bs r' pos HB eq_refl RA) by (unfold pos; lia).
      f_equal. unfold pos. lia.
    + intros m Hm. destruct (read_bits_spec e m _ _ RA) as (r'' & ER & _).
      * rewrite skipn_length. lia.
      * eauto.
  - destruct A2 as (bs' & r' & EA & RA & LA).
    { intro Hp. apply PF in Hp. congruence. }
    exists r'. split; [exact EA|].
    (* the inner source is untouched: align reads at most the bits already fetched *)
    assert (LR := Rbr_inner_length _ _ _ RA). rewrite LA in LR.
    rewrite <- (Rbr_inner_length _ _ _ R) in LR.
    (* align never changes [rest] except by consuming a byte *)
    assert (SUF : forall f r0 o r1, br_align_loop f r0 = (o, r1) ->
              exists p, rest (br_inner r0) = p ++ rest (br_inner r1)).
    { assert (RB : forall r0 o r1, br_read_bit r0 = (o, r1) -> exists p, rest (br_inner r0) = p ++ rest (br_inner r1)).
      { intros [[rs ae] cur rem tr] o r1. unfold br_read_bit, bind, br_refill, read_exact.
        cbn [br_remaining br_inner rest at_end br_track br_current].
        destruct (0 =? rem).
        - destruct rs as [|x rs].
          + cbn. intro HH. inversion HH; subst. exists []. reflexivity.
          + cbn [List.length Nat.leb firstn skipn br_track br_inner].
            destruct tr as [tv|]; [destruct (bv_push tv _)|]; intro HH; inversion HH; subst; exists [x]; reflexivity.
        - cbn [br_track br_inner]. destruct tr as [tv|]; [destruct (bv_push tv _)|]; intro HH; inversion HH; subst; exists []; reflexivity. }
      induction f; intros r0 o r1; cbn [br_align_loop].
      - intro HH. inversion HH; subst. exists []. reflexivity.
      - unfold bind. unfold br_position. destruct (br_remaining r0 <=? 7).
        + destruct (0 =? _).
          * intro HH. inversion HH; subst. exists []. reflexivity.
          * destruct (br_read_bit r0) as [o1 r2] eqn:E1. destruct (RB _ _ _ E1) as (p1 & P1).
            destruct o1; try (intro HH; inversion HH; subst; eauto; fail).
            destruct a; cbn [negb ensure ret fail]; unfold ret, fail.
            -- intro HH; inversion HH; subst. eauto.
            -- intro HH. destruct (IHf _ _ _ HH) as (p2 & P2). exists (p1 ++ p2).
               rewrite P1, P2. apply app_assoc.
        + intro HH. inversion HH; subst. exists []. reflexivity. }
    unfold br_align, bind in EA. rewrite (Rbr_untracked _ _ _ R) in EA.
    destruct (SUF _ _ _ _ EA) as (p & HP). rewrite HP in LR. rewrite app_length in LR.
    destruct p; [symmetry; exact HP|cbn in LR; lia].
Qed.

Lemma C06_lemma : forall (bytes : list N) (e : errkind) (n : nat) l r,
  bytes_ok bytes ->
  read_bits n (br_new (mkSource bytes e)) = (Ok l, r) ->
  l = firstn n (bits_of_bytes bytes)
  /\ rest (br_inner r) = skipn ((n + 7) / 8) bytes.
Proof.
  intros bytes e n l r HB E.
  destruct (read_bits_ok _ _ _ _ _ _ (Rbr_new (mkSource bytes e) HB) E) as (HL & -> & R).
  cbn [rest at_end] in *. split; [reflexivity|].
  eapply Rbr_rest_skip; eauto.
Qed.

Lemma C08_lemma : forall (bytes : list N) (e : errkind) (k : nat) l r,
  bytes_ok bytes ->
  read_bits (8 * k) (br_new (mkSource bytes e)) = (Ok l, r) ->
  (exists out r', br_read_length_prefixed r = (out, r')
     /\ ((exists data, out = Ok data) \/ (exists er, out = Err er))) /\
  forall data follow,
    (exists r', br_read_length_prefixed r = (Ok data, r') /\ rest (br_inner r') = follow)
    <-> (N.of_nat (List.length data) < 65536
         /\ skipn k bytes = le16_bytes (N.of_nat (List.length data))
                            ++ le16_bytes (65535 - N.of_nat (List.length data)) ++ data ++ follow).
Proof.
  intros bytes e k l r HB E.
  destruct (read_bits_ok _ _ _ _ _ _ (Rbr_new (mkSource bytes e) HB) E) as (HL & _ & R).
  cbn [rest at_end] in *. rewrite skipn_bits in R.
  assert (HS : bytes_ok (skipn k bytes)) by now apply bytes_ok_skipn.
  assert (RA : Rbra e (bits_of_bytes (skipn k bytes)) r).
  { split; [exact R|]. rewrite bits_of_bytes_length. lia. }
  destruct (sim_length_prefixed e _ _ RA) as (r' & E' & R').
  split.
  - eexists. eexists. split; [exact E'|].
    unfold lb_length_prefixed, lb_u16, bind. rewrite lb_read_bytes_bits by assumption.
    destruct (Nat.leb 2 _); cbn [fst eof_out]; [|eauto]. unfold ret.
    rewrite lb_read_bytes_bits by now apply bytes_ok_skipn.
    destruct (Nat.leb 2 _); cbn [fst eof_out]; [|eauto].
    destruct (_ =? _); cbn [ensure ret fail]; unfold ret, fail; cbn [fst]; [|eauto].
    unfold lb_read_bytes. destruct (Nat.leb _ _); cbn [fst eof_out]; eauto.
  - intros data follow. split.
    + intros (r1 & E1 & <-). rewrite E1 in E'. 
      destruct (lb_length_prefixed _ _) as [o bs'] eqn:EL. cbn [fst snd] in *.
      injection E' as E'o E'r. subst r1 o.
      apply lb_length_prefixed_ok in EL; [|assumption]. destruct EL as (t & HD & -> & HT).
      split; [exact HD|]. rewrite HT. do 3 f_equal.
      destruct (Rbra_bytes _ _ _ R') as (_ & HH & HH2).
      apply bits_of_bytes_inj; auto.
      rewrite HT in HS. repeat apply Forall_app in HS as [_ HS]. exact HS.
    + intros (HD & HT).
      assert (EL : lb_length_prefixed (EofErr (EIo e)) (bits_of_bytes (skipn k bytes)) = (Ok data, bits_of_bytes follow)).
      { apply lb_length_prefixed_ok; [assumption|]. eauto. }
      rewrite EL in E', R'. cbn [fst snd] in *. exists r'. split; [exact E'|].
      destruct (Rbra_bytes _ _ _ R') as (_ & HH & HH2).
      apply bits_of_bytes_inj; auto.
      rewrite HT in HS. repeat apply Forall_app in HS as [_ HS]. exact HS.
Qed.
