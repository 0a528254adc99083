(** Proofs for C87: what reading a stream says when it fails. *)
From Verif Require Import Base M_bit M_lib M_code_tree M_huffman M_parse Spec Clients Clients_wrong L_bits L_reader L_writer L_bitprops L_stored L_tree L_huff L_header L_safe L_parse L_P_parse L_wrong.
From Coq Require Import ZArith ZifyBool ZifyNat ZifyN.
Ltac Zify.zify_post_hook ::= Z.div_mod_to_equations.
Local Open Scope N_scope.
Local Open Scope model_scope.

Lemma align_errs e bs r er r' : Rbr e bs r -> br_align r = (Err er, r') -> exists s, er = EMsg s.
Proof.
  intros HR E. destruct (br_align_spec e bs r HR) as [I1 I2]. set (p := firstn (List.length bs mod 8) bs) in *.
  destruct (list_eq_dec Bool.bool_dec p (repeat false (List.length p))) as [Hp|Hp].
  - destruct (I1 Hp) as (r2 & EA & _). rewrite EA in E. discriminate E.
  - destruct (I2 Hp) as (b' & r2 & EA & _). rewrite EA in E. injection E as <- _. eauto.
Qed.

Lemma drain_errs e fuel : forall bs it er it', at_bits e bs it -> bi_drain fuel it = (Err er, it') -> (exists s, er = EMsg s) \/ er = EIo e.
Proof.
  induction fuel as [|fuel IH]; intros bs it er it' HA E; [discriminate E|].
  destruct it as [r en]. unfold at_bits in HA. cbn [bi_inner] in HA.
  cbn [bi_drain] in E. unfold bind at 1, bi_next at 1 in E. cbn [bi_end bi_inner] in E. destruct en.
  - destruct (br_align r) as [o r3] eqn:EA. destruct o as [u|x| |]; try discriminate E. injection E as -> _. left. eapply align_errs; eassumption.
  - destruct (sim_br_read_bit e _ _ HA) as (r1 & E1 & R1). rewrite E1 in E.
    destruct bs as [|fin bs]; cbn [rbl fst snd eof_out] in *; [injection E as <- _; now right|].
    destruct (sim_read_block e _ _ R1) as (r2 & E2 & R2). rewrite E2 in E.
    destruct (lb_read_block (EofErr (EIo e)) bs) as [o b2] eqn:EB. cbn [fst snd] in *.
    destruct o as [b|x| |]; try discriminate E.
    + apply bind_msg in E. destruct E as [E|(more & i2 & _ & E)]; [|discriminate E]. eapply IH; [|exact E]. exact R2.
    + injection E as -> _. apply ioe_block in EB. destruct EB as [EB|[_ EK]]; [now left|]. right. congruence.
Qed.

Lemma bits_mod bytes : ((0 + List.length (bits_of_bytes bytes)) mod 8 = 0)%nat.
Proof. rewrite bits_of_bytes_length. lia. Qed.

Lemma new_at bytes e : bytes_ok bytes -> at_bits e (bits_of_bytes bytes) (parse_deflate (mkSource bytes e)).
Proof. intro HB. exact (Rbr_new (mkSource bytes e) HB). Qed.

Lemma C87_lemma : forall bytes e msg, bytes_ok bytes ->
  fst (parse_all (mkSource bytes e)) = Err (EMsg msg) <-> exists blocks w t, bits_of_bytes bytes = w ++ t /\ wrong_stream 0 blocks msg w.
Proof.
  intros bytes e msg HB. assert (HA := new_at bytes e HB). unfold parse_all. cbn [rest]. split.
  - intro E. destruct (bi_drain (8 * List.length bytes + 2) (parse_deflate (mkSource bytes e))) as [o it'] eqn:ED. cbn [fst] in E. subst o.
    eapply drain_msg; [exact HA|apply bits_mod|reflexivity|exact ED].
  - intros (blocks & w & t & EB & HW). assert (HM := bits_mod bytes). assert (LB := bits_of_bytes_length bytes). rewrite EB in HA, HM, LB.
    destruct (next_wrong e 0 blocks msg w HW t _ HA eq_refl HM) as [_ I2]. apply I2.
    apply wrong_stream_length in HW. rewrite app_length in LB. lia.
Qed.

Lemma C87_lemma_delivered : forall bytes e blocks msg w t, bytes_ok bytes -> bits_of_bytes bytes = w ++ t -> wrong_stream 0 blocks msg w ->
  fst (call_next (List.length blocks + 1) (parse_deflate (mkSource bytes e))) = map (fun b => Ok (Some b)) blocks ++ [Err (EMsg msg)].
Proof.
  intros bytes e blocks msg w t HB EB HW. assert (HA := new_at bytes e HB). assert (HM := bits_mod bytes). rewrite EB in HA, HM.
  exact (proj1 (next_wrong e 0 blocks msg w HW t _ HA eq_refl HM)).
Qed.

Lemma C87_lemma_io : forall bytes e, bytes_ok bytes ->
  fst (parse_all (mkSource bytes e)) = Err (EIo e) <->
  (forall blocks used tail, bytes = used ++ tail -> ~ stream_bits 0 blocks (bits_of_bytes used))
  /\ (forall blocks msg w t, bits_of_bytes bytes = w ++ t -> ~ wrong_stream 0 blocks msg w).
Proof.
  intros bytes e HB. split.
  - intro E. split.
    + intros blocks used tail EB HS. destruct (proj2 (parse_all_iff bytes e blocks tail HB)) as (it & EP & _); [eauto|]. rewrite EP in E. discriminate E.
    + intros blocks msg w t EB HW. assert (X : fst (parse_all (mkSource bytes e)) = Err (EMsg msg)) by (apply C87_lemma; eauto). rewrite E in X. discriminate X.
  - intros [H1 H2]. assert (T := parse_all_total bytes e HB). destruct (parse_all (mkSource bytes e)) as [o it] eqn:EP. cbn [fst] in *.
    assert (EP' := EP). unfold parse_all in EP'. destruct o as [blocks|er| |]; cbn in T; try contradiction.
    + exfalso. destruct (C23_lemma_ends bytes e blocks it HB EP) as (tail & ET).
      assert (X : exists used, bytes = used ++ tail /\ stream_bits 0 blocks (bits_of_bytes used)) by (apply (parse_all_iff bytes e); eauto).
      destruct X as (used & EB & HS). exact (H1 _ _ _ EB HS).
    + destruct (drain_errs e _ _ _ _ _ (new_at bytes e HB) EP') as [(s & ->)| ->]; [|reflexivity].
      exfalso. assert (X : fst (parse_all (mkSource bytes e)) = Err (EMsg s)) by now rewrite EP. apply C87_lemma in X; [|exact HB].
      destruct X as (bl & w & t & EB & HW). exact (H2 _ _ _ _ EB HW).
Qed.

Lemma C87_lemma_outcomes : forall bytes e, bytes_ok bytes ->
  (exists blocks, fst (parse_all (mkSource bytes e)) = Ok blocks) \/ (exists msg, fst (parse_all (mkSource bytes e)) = Err (EMsg msg))
  \/ fst (parse_all (mkSource bytes e)) = Err (EIo e).
Proof.
  intros bytes e HB. assert (T := parse_all_total bytes e HB). destruct (parse_all (mkSource bytes e)) as [o it] eqn:EP. cbn [fst] in *.
  destruct o as [blocks|er| |]; cbn in T; try contradiction; [left; eauto|right].
  unfold parse_all in EP. destruct (drain_errs e _ _ _ _ _ (new_at bytes e HB) EP) as [(s & ->)| ->]; eauto.
Qed.

(** Nothing that starts like that is a stream. *)
Lemma C87_lemma_hopeless : forall blocks msg w t blocks', wrong_stream 0 blocks msg w -> ~ stream_bits 0 blocks' (w ++ t).
Proof.
  intros blocks msg w t blocks' HW HS. assert (HL := stream_bits_aligned _ _ _ HS). cbn [Nat.add] in HL.
  assert (EB := bits_of_pack_full _ HL). set (bytes := pack (w ++ t)) in *.
  assert (HB : bytes_ok bytes) by apply pack_bytes_ok.
  assert (X : fst (parse_all (mkSource bytes UnexpectedEof)) = Err (EMsg msg)) by (apply C87_lemma; eauto).
  destruct (proj2 (parse_all_iff bytes UnexpectedEof blocks' [] HB)) as (it & EP & _).
  - exists bytes. rewrite app_nil_r, EB. auto.
  - rewrite EP in X. discriminate X.
Qed.

(** Only one complaint, after the same blocks. *)
Lemma C87_lemma_unique : forall b1 m1 w1 t1 b2 m2 w2 t2, wrong_stream 0 b1 m1 w1 -> wrong_stream 0 b2 m2 w2 -> w1 ++ t1 = w2 ++ t2 -> (List.length (w1 ++ t1) mod 8 = 0)%nat ->
  m1 = m2 /\ b1 = b2.
Proof.
  intros b1 m1 w1 t1 b2 m2 w2 t2 H1 H2 EW HL. assert (EB := bits_of_pack_full _ HL). set (bytes := pack (w1 ++ t1)) in *.
  assert (HB : bytes_ok bytes) by apply pack_bytes_ok.
  assert (X1 : fst (parse_all (mkSource bytes UnexpectedEof)) = Err (EMsg m1)) by (apply C87_lemma; eauto).
  assert (X2 : fst (parse_all (mkSource bytes UnexpectedEof)) = Err (EMsg m2)) by (apply C87_lemma; [exact HB|]; rewrite EW in EB; eauto).
  split; [congruence|].
  assert (D1 := C87_lemma_delivered bytes UnexpectedEof b1 m1 w1 t1 HB EB H1). rewrite EW in EB. assert (D2 := C87_lemma_delivered bytes UnexpectedEof b2 m2 w2 t2 HB EB H2).
  assert (GEN : forall a b, (List.length a <= List.length b)%nat ->
    fst (call_next (List.length a + 1) (parse_deflate (mkSource bytes UnexpectedEof))) = map (fun b => Ok (Some b)) a ++ [Err (EMsg m1)] ->
    fst (call_next (List.length b + 1) (parse_deflate (mkSource bytes UnexpectedEof))) = map (fun b => Ok (Some b)) b ++ [Err (EMsg m2)] -> a = b).
  { clear. assert (APP : forall n m it, fst (call_next (n + m) it) = fst (call_next n it) ++ fst (call_next m (snd (call_next n it)))).
    { induction n as [|n IH]; intros m it; [reflexivity|]. cbn [Nat.add call_next]. destruct (bi_next it) as [o i1]. specialize (IH m i1).
      destruct (call_next (n + m) i1) as [os i2]. destruct (call_next n i1) as [os' i3]. cbn [fst snd] in *. rewrite IH. reflexivity. }
    intros a b HL HA HBb. replace (List.length b + 1)%nat with (List.length a + 1 + (List.length b - List.length a))%nat in HBb by lia.
    rewrite APP, HA in HBb. generalize dependent (fst (call_next (List.length b - List.length a) (snd (call_next (List.length a + 1) (parse_deflate (mkSource bytes UnexpectedEof)))))).
    clear. intro rest. revert b. induction a as [|x a IH]; intros [|y b] E; cbn [map app] in E; try discriminate E; [reflexivity|].
    injection E as -> E. f_equal. now apply IH. }
  destruct (Nat.le_ge_cases (List.length b1) (List.length b2)) as [L|L]; [now apply GEN|]. symmetry.
  assert (m1 = m2) by congruence. subst m2. now apply GEN.
Qed.

Lemma C11_lemma_messages : forall lens msg, N.of_nat (List.length lens) <= 65536 ->
  (tree_new lens = Err (EMsg msg) <-> bad_code lens msg).
Proof.
  intros lens msg HL. split; [|now apply tree_new_bad]. intro E. destruct (tree_new_msg lens HL) as [(t & E' & _)|(m & E' & B)]; rewrite E' in E; [discriminate E|].
  injection E as <-. exact B.
Qed.
