(** Lemmas: the block writer against the stream grammar. *)
From Verif Require Import Base M_bit M_lib M_code_tree M_huffman M_parse M_serialise Spec Clients L_bits L_writer L_reader L_bitprops L_stored L_tree L_huff L_header L_safe L_parse.
From Coq Require Import ZArith ZifyBool ZifyNat ZifyN.
Ltac Zify.zify_post_hook ::= Z.div_mod_to_equations.
Local Open Scope N_scope.
Local Open Scope model_scope.

(** [m] panics whatever was written before. *)
Definition panics (m : M bit_writer unit) : Prop :=
  forall out w, wst out w -> exists msg w', m w = (Panic msg, w').

Lemma panics_bind_l (m : M bit_writer unit) (g : unit -> M bit_writer unit) : panics m -> panics (bind m g).
Proof. intros H out w Hw. destruct (H out w Hw) as (msg & w' & E). exists msg, w'. unfold bind. now rewrite E. Qed.

Lemma panics_bind_r (m : M bit_writer unit) (g : M bit_writer unit) bs :
  (forall out, writes out m bs) -> panics g -> panics (m ;;; g).
Proof.
  intros H1 H2 out w Hw. destruct (H1 out w Hw) as (w1 & E1 & W1). destruct (H2 _ w1 W1) as (msg & w' & E).
  exists msg, w'. unfold bind. now rewrite E1.
Qed.

Lemma panics_lift {A} (x : outcome A) a (g : A -> M bit_writer unit) : x = Ok a -> panics (g a) -> panics (bind (lift x) g).
Proof. intros -> H. exact H. Qed.

(** ** Codes *)
Definition opt_vec (o : option (list bool)) : option bitvec := match o with Some w => Some (bitvec_of w) | None => None end.

(** The inverted tables, as lookup functions. *)
Definition inv_of (ll : list N) (inv : list (option bitvec)) : Prop :=
  List.length inv = 288%nat /\ forall s, s < 288 -> nth_error inv (N.to_nat s) = Some (opt_vec (rfc_code ll s)).
Definition dinv_of (dl : list N) (dinv : option (list (option bitvec))) : Prop :=
  match dinv with
  | None => forall s, rfc_code dl s = None
  | Some inv => forall s, s <= 30 -> nth_error inv (N.to_nat s) = Some (opt_vec (rfc_code dl s))
  end.

Lemma get_inv ll inv s : inv_of ll inv -> s < 288 -> get_idx inv (N.to_nat s) = Ok (opt_vec (rfc_code ll s)).
Proof. intros [_ H] Hs. unfold get_idx. now rewrite H. Qed.

Section Codes.
  Context (ll dl : list N) (inv : list (option bitvec)) (dinv : option (list (option bitvec))).
  Context (HI : inv_of ll inv) (HD : dinv_of dl dinv).

  Lemma writes_run run sym lw x :
    encode_run_length run = Ok sym -> extra_run_length run = Ok x -> sym < 288 -> rfc_code ll sym = Some lw ->
    fst (match x with Some p => p | None => (0, 0) end) <= 16 ->
    forall out, writes out (encode_run inv run)
      (lw ++ lsb (N.to_nat (match x with Some p => fst p | None => 0 end)) (match x with Some p => snd p | None => 0 end)).
  Proof.
    intros E1 E2 Hs HC HX out. unfold encode_run.
    eapply writes_lift_ok; [exact E1|]. eapply writes_lift_ok; [apply (get_inv ll); assumption|].
    rewrite HC. cbn [opt_vec]. eapply writes_lift_ok; [reflexivity|].
    apply writes_bind; [apply writes_vec|]. eapply writes_lift_ok; [exact E2|].
    destruct x as [[b v]|]; cbn [fst snd] in *; [now apply writes_bits_val|apply writes_ret].
  Qed.

  Lemma panics_run run sym x : encode_run_length run = Ok sym -> extra_run_length run = Ok x -> sym < 288 ->
    rfc_code ll sym = None -> panics (encode_run inv run).
  Proof.
    intros E1 E2 Hs HC. unfold encode_run. eapply panics_lift; [exact E1|].
    eapply panics_lift; [apply (get_inv ll); assumption|]. rewrite HC. cbn [opt_vec].
    intros out w Hw. eexists _, w. reflexivity.
  Qed.

  Lemma writes_dist d sym eb ev dw :
    huff_encode_distance d = Ok (Some (sym, eb, ev)) -> sym <= 29 -> eb <= 13 -> rfc_code dl sym = Some dw ->
    forall out, writes out (encode_distance dinv d) (dw ++ lsb (N.to_nat eb) ev).
  Proof.
    intros E1 Hs He HC out. unfold encode_distance. eapply writes_lift_ok; [exact E1|]. cbn iota beta.
    unfold dinv_of in HD. destruct dinv as [di|].
    - eapply writes_lift_ok; [unfold get_idx; rewrite HD by lia; reflexivity|]. rewrite HC. cbn [opt_vec].
      eapply writes_lift_ok; [reflexivity|]. apply writes_bind; [apply writes_vec|].
      destruct (N.ltb_spec 0 eb); [apply writes_bits_val; lia|]. assert (eb = 0) as -> by lia. apply writes_ret.
    - rewrite HD in HC. discriminate.
  Qed.

  (** A code of the grammar is either written, in canonical form, or makes the writer panic. *)
  Lemma code_written c w : code_bits ll dl c w -> (forall s1 s2 w1 w2 x y, rfc_code ll s1 = Some w1 -> rfc_code ll s2 = Some w2 ->
        w1 ++ x = w2 ++ y -> s1 = s2) -> code_ok c ->
    (exists w', canonical_code ll dl c w' /\ (forall out, writes out (compressed_code inv dinv c) w')
        /\ (forall t t', w ++ t = w' ++ t' -> w = w') /\ (canonical_code ll dl c w -> w = w'))
    \/ (panics (compressed_code inv dinv c) /\ exists r, c = Reference r /\ ref_len r = 258 /\ rfc_code ll 285 = None).
  Proof.
    intros HC PF OK. destruct HC as [b w Hb HC | r lsym lextra le lw dsym dextra de dw TL HL TD HDD].
    - left. exists w. split; [split; [now constructor|exact I]|]. split.
      + intro out. cbn [compressed_code]. eapply writes_lift_ok; [apply (get_inv ll); [assumption|lia]|].
        rewrite HC. apply writes_vec.
      + split; auto.
    - assert (BL := table_row_length _ _ _ _ TL). assert (BD := table_row_distance _ _ _ _ TD).
      destruct (encode_length_spec (ref_len r)) as (sym & x & E1 & E2 & TR & UN); [lia|].
      destruct (encode_distance_spec (r_dist r)) as (ds & eb & ev & E3 & TR3 & UN3); [lia|].
      destruct (UN3 _ _ _ TD) as (-> & -> & ->).
      assert (BS := table_row_length _ _ _ _ TR).
      assert (RR : r_run r = ref_len r).
      { unfold r_run, ref_len. reflexivity. }
      destruct (UN _ _ _ TL) as [ES|[ES EL]].
      + (* the grammar's symbol is the writer's *)
        subst lsym. destruct (length_row_det _ _ _ _ _ _ TL TR) as [-> ->].
        left. eexists. split; [split|split].
        * econstructor; eassumption.
        * intros E258. rewrite E258 in E1. change (encode_run_length 258) with (@Ok N 285) in E1. injection E1 as <-.
          exists lw. eexists. split; [exact HL|reflexivity].
        * intro out. cbn [compressed_code]. rewrite RR. rewrite app_assoc. apply writes_bind.
          -- eapply writes_run; try eassumption; [lia|]. destruct x as [[b v]|]; cbn [fst snd] in *; lia.
          -- eapply writes_dist; try eassumption; lia.
        * split; auto.
      + subst lsym. rewrite EL in E1. change (encode_run_length 258) with (@Ok N 285) in E1. injection E1 as <-.
        destruct (rfc_code ll 285) as [lw'|] eqn:E285.
        * left. eexists. split; [split|split].
          -- eapply CB_reference; [exact TR|exact E285|exact TD|exact HDD].
          -- intros _. exists lw'. eexists. split; [exact E285|reflexivity].
          -- intro out. cbn [compressed_code]. rewrite RR. rewrite app_assoc. apply writes_bind.
             ++ eapply writes_run; try eassumption; [rewrite EL; reflexivity|lia|]. destruct x as [[b v]|]; cbn [fst snd] in *; lia.
             ++ eapply writes_dist; try eassumption; lia.
          -- split.
             ++ intros t t' E. rewrite <- !app_assoc in E. assert (X := PF _ _ _ _ _ _ HL E285 E). discriminate.
             ++ intros [_ CC]. destruct (CC EL) as (lw2 & t & EW & E). rewrite E285 in EW. injection EW as <-.
                assert (X := PF _ _ _ _ _ _ HL E285 E). discriminate.
        * right. split; [|exists r; auto].
          cbn [compressed_code]. apply panics_bind_l. rewrite RR.
          eapply panics_run; [rewrite EL; reflexivity|exact E2|lia|exact E285].
  Qed.

  Lemma codes_written cs w : body_bits ll dl cs w -> (forall s1 s2 w1 w2 x y, rfc_code ll s1 = Some w1 -> rfc_code ll s2 = Some w2 ->
        w1 ++ x = w2 ++ y -> s1 = s2) -> Forall code_ok cs ->
    (exists w' we, canonical_body ll dl cs (w' ++ we) /\ rfc_code ll 256 = Some we
        /\ (forall out, writes out (compressed_codes_loop inv dinv cs) w')
        /\ (forall t t', w ++ t = (w' ++ we) ++ t' -> w = w' ++ we))
    \/ (panics (compressed_codes_loop inv dinv cs)
        /\ exists r, In (Reference r) cs /\ ref_len r = 258 /\ rfc_code ll 285 = None).
  Proof.
    intros HB PF. induction HB as [w HC | c cs w ws HC HB IH]; intro OK.
    - left. exists [], w. split; [now constructor|]. split; [exact HC|]. split; [intro; apply writes_ret|auto].
    - inversion OK as [|? ? OK1 OK2]; subst. specialize (IH OK2).
      destruct (code_written c w HC PF OK1) as [(w' & CC & W1 & U1 & _)|[P1 X1]].
      + destruct IH as [(w2 & we & CB & HE & W2 & U2)|[P2 X2]].
        * left. exists (w' ++ w2), we. rewrite <- app_assoc. split; [now constructor|]. split; [exact HE|]. split.
          -- intro out. cbn [compressed_codes_loop]. apply writes_bind; auto.
          -- intros t t' E. rewrite <- !app_assoc in E. assert (EW := U1 _ _ E). subst w'. f_equal.
             apply app_inv_head in E. rewrite app_assoc in E. eapply U2. exact E.
        * right. split; [|destruct X2 as (r & ? & ? & ?); exists r; cbn; auto].
          cbn [compressed_codes_loop]. eapply panics_bind_r; [exact W1|exact P2].
      + right. split; [|destruct X1 as (r & -> & ? & ?); exists r; cbn; auto].
        cbn [compressed_codes_loop]. apply panics_bind_l. exact P1.
  Qed.

  Lemma canonical_written cs w : canonical_body ll dl cs w -> (forall s1 s2 w1 w2 x y, rfc_code ll s1 = Some w1 -> rfc_code ll s2 = Some w2 ->
        w1 ++ x = w2 ++ y -> s1 = s2) -> Forall code_ok cs ->
    exists w' we, w = w' ++ we /\ rfc_code ll 256 = Some we
        /\ (forall out, writes out (compressed_codes_loop inv dinv cs) w').
  Proof.
    intros HB PF. induction HB as [w HC | c cs w ws HC HB IH]; intro OK.
    - exists [], w. split; [reflexivity|]. split; [exact HC|]. intro; apply writes_ret.
    - inversion OK as [|? ? OK1 OK2]; subst. destruct (IH OK2) as (w2 & we & -> & HE & W2).
      exists (w ++ w2), we. split; [apply app_assoc|]. split; [exact HE|]. intro out. cbn [compressed_codes_loop].
      apply writes_bind; [|apply W2].
      destruct (code_written c w (proj1 HC) PF OK1) as [(w' & CC & W1 & U1 & U2)|[P1 (r & -> & H258 & X)]].
      + rewrite (U2 HC). apply W1.
      + destruct HC as [_ HC]. destruct (HC H258) as (lw & t & EC & _). congruence.
  Qed.
End Codes.

Lemma inv_opt dl dt : dist_table dl dt -> exists dinv, invert_opt dt = Ok dinv /\ dinv_of dl dinv.
Proof.
  intro H. destruct dt as [t|]; unfold invert_opt, dist_table in *.
  - destruct H as (lens' & [ET _] & HL & HC). destruct (tree_invert_spec lens' t ET ltac:(lia)) as (inv & E1 & _ & E3).
    exists (Some inv). rewrite E1. split; [reflexivity|]. intros s Hs. rewrite E3 by lia. unfold opt_vec. now rewrite HC.
  - exists None. split; [reflexivity|exact H].
Qed.

Lemma tree_unique ll lt : tree_of ll lt -> forall s1 s2 w1 w2 x y, rfc_code ll s1 = Some w1 -> rfc_code ll s2 = Some w2 ->
  w1 ++ x = w2 ++ y -> s1 = s2.
Proof.
  intros HT s1 s2 w1 w2 x y H1 H2 E.
  assert (D1 : decode_symbol (rbl (EofPanic "")) lt (w1 ++ x) = (Ok s1, x)) by (apply (decode_symbol_spec _ ll); eauto).
  assert (D2 : decode_symbol (rbl (EofPanic "")) lt (w1 ++ x) = (Ok s2, y)) by (apply (decode_symbol_spec _ ll); eauto).
  rewrite D1 in D2. now injection D2.
Qed.

Lemma body_written ll dl lt dt cs w : tree_of ll lt -> (List.length ll <= 288)%nat -> dist_table dl dt ->
  body_bits ll dl cs w -> Forall code_ok cs ->
  (exists w', canonical_body ll dl cs w' /\ (forall out, writes out (compressed_codes lt dt cs) w')
     /\ (forall t t', w ++ t = w' ++ t' -> w = w'))
  \/ (panics (compressed_codes lt dt cs) /\ exists r, In (Reference r) cs /\ ref_len r = 258 /\ rfc_code ll 285 = None).
Proof.
  intros HT HL HDT HB OK.
  destruct (tree_invert_spec ll lt (proj1 HT) HL) as (inv & E1 & E2 & E3).
  assert (IV : inv_of ll inv) by (split; assumption).
  destruct (inv_opt dl dt HDT) as (dinv & E4 & DV).
  destruct (codes_written ll dl inv dinv IV DV cs w HB (tree_unique _ _ HT) OK) as [(w' & we & CB & HE & W & U)|[P X]].
  - left. exists (w' ++ we). split; [exact CB|]. split; [|exact U].
    intro out. unfold compressed_codes. eapply writes_lift_ok; [exact E1|]. eapply writes_lift_ok; [exact E4|].
    apply writes_assert; [rewrite E2; reflexivity|]. apply writes_bind; [apply W|].
    eapply writes_lift_ok; [apply (get_inv ll inv 256 IV); lia|]. rewrite HE. cbn [opt_vec].
    eapply writes_lift_ok; [reflexivity|]. apply writes_vec.
  - right. split; [|exact X]. unfold compressed_codes. eapply panics_lift; [exact E1|]. eapply panics_lift; [exact E4|].
    intros out st Hst. destruct (P out st Hst) as (msg & st' & E). exists msg, st'.
    unfold bind, assert_. rewrite E2. cbn [Nat.ltb Nat.leb]. 
    change (if (256 <? 288)%nat then ret tt else panic "assert!(length_tree.len() > 256)") with (ret (S := bit_writer) tt).
    unfold ret at 1. now rewrite E.
Qed.

Lemma body_canonical ll dl lt dt cs w : tree_of ll lt -> (List.length ll <= 288)%nat -> dist_table dl dt ->
  canonical_body ll dl cs w -> Forall code_ok cs -> forall out, writes out (compressed_codes lt dt cs) w.
Proof.
  intros HT HL HDT HB OK out.
  destruct (tree_invert_spec ll lt (proj1 HT) HL) as (inv & E1 & E2 & E3).
  assert (IV : inv_of ll inv) by (split; assumption).
  destruct (inv_opt dl dt HDT) as (dinv & E4 & DV).
  destruct (canonical_written ll dl inv dinv IV DV cs w HB (tree_unique _ _ HT) OK) as (w' & we & -> & HE & W).
  unfold compressed_codes. eapply writes_lift_ok; [exact E1|]. eapply writes_lift_ok; [exact E4|].
  apply writes_assert; [rewrite E2; reflexivity|]. apply writes_bind; [apply W|].
  eapply writes_lift_ok; [apply (get_inv ll inv 256 IV); lia|]. rewrite HE. cbn [opt_vec].
  eapply writes_lift_ok; [reflexivity|]. apply writes_vec.
Qed.

(** ** Blocks *)
Lemma canonical_body_body ll dl cs w : canonical_body ll dl cs w -> body_bits ll dl cs w.
Proof. induction 1 as [|c cs w ws [HC _]]; constructor; auto. Qed.
Lemma canonical_block_block off b w : canonical_block off b w -> block_bits off b w.
Proof. intros []; try assumption; econstructor; eauto using canonical_body_body. Qed.
Lemma canonical_stream_stream off bs w : canonical_stream off bs w -> stream_bits off bs w.
Proof. induction 1; constructor; auto using canonical_block_block. Qed.

Lemma be_le_symmetric n : n < 65536 -> be_bytes n = le16_bytes n <-> n mod 256 = n / 256.
Proof. intro H. unfold be_bytes, le16_bytes. split; [intro E; injection E; lia|]. intro E. now rewrite E. Qed.

Lemma le16_ok v : v < 65536 -> bytes_ok (le16_bytes v).
Proof. intro Hv. repeat constructor; unfold is_byte; lia. Qed.

Lemma be_le_both data : symmetric_length data -> N.of_nat (List.length data) < 65536 ->
  le16_bytes (N.of_nat (List.length data)) = be_bytes (N.of_nat (List.length data))
  /\ le16_bytes (65535 - N.of_nat (List.length data)) = be_bytes (65535 - N.of_nat (List.length data)).
Proof. unfold symmetric_length. intros S HL. split; symmetry; apply be_le_symmetric; lia. Qed.

Lemma fixed_ll_288 : (List.length fixed_ll <= 288)%nat.
Proof. apply Nat.leb_le. vm_compute. reflexivity. Qed.

Definition header_lacks_285 (b : Block) : Prop :=
  exists ll dl hdr cs r, b = DynamicHuffman (bitvec_of hdr) cs /\ dyn_header ll dl hdr
    /\ In (Reference r) cs /\ ref_len r = 258 /\ rfc_code ll 285 = None.

Lemma dyn_tables ll dl hdr : dyn_header ll dl hdr -> exists lt dt,
  fst (read_codes si_read_bit (bv_iter (bitvec_of hdr))) = Ok (lt, dt) /\ tree_of ll lt /\ (List.length ll <= 288)%nat /\ dist_table dl dt.
Proof.
  intro HD. destruct (header_build _ _ _ HD) as ([lt dt] & HT & E1 & E2). cbn [fst snd] in *. exists lt, dt. split.
  - destruct (sim_read_codes _ _ _ (sim_si hdr) hdr _ (Rsi_new hdr)) as (it & ER & _). rewrite ER.
    assert (EK : read_codes (rbl (EofPanic "TODO: EOF")) hdr = (Ok (lt, dt), [])).
    { apply read_codes_spec. exists hdr. now rewrite app_nil_r. }
    now rewrite EK.
  - destruct HD as [hlit hdist hclen cls items ws H1 H2 H3 HC FC CC HLL HDL HE HBb CL DO].
    split; [split; [assumption|lia]|]. split; [lia|]. destruct dt as [t|]; cbn.
    + destruct E2 as [NZ EDT]. assert (T := dist_tree_of_spec dl ltac:(lia) NZ). rewrite EDT in T. tauto.
    + subst dl. intro s. unfold rfc_code. destruct (N.to_nat s) as [|[|q]]; reflexivity.
Qed.

Lemma fixed_has_285 : rfc_code fixed_ll 285 <> None.
Proof. vm_compute. discriminate. Qed.

(** A block of the grammar is either written, or makes the writer panic; if what is written agrees with
    the grammar's bits, these were canonical. *)
Lemma block_written off b w : block_bits off b w -> block_wf b ->
  (exists w', (forall out, (List.length out = off)%nat -> writes out (compressed_block b) w')
      /\ (forall t t', w ++ t = w' ++ t' -> w = w' /\ canonical_block off b w))
  \/ (panics (compressed_block b) /\ header_lacks_285 b).
Proof.
  intros HB WF. destruct HB as [data k HL OD HP | cs w HB | ll dl hdr cs w HD HB].
  - left. set (n := N.of_nat (List.length data)) in *.
    exists (lsb 2 0 ++ repeat false k ++ bits_of_bytes (be_bytes n ++ be_bytes (65535 - n) ++ data)).
    split.
    + intros out HO. cbn [compressed_block]. apply writes_bind.
      * apply (writes_bits_val out 2 0). lia.
      * apply writes_length_prefixed; auto. rewrite app_length, lsb_length, HO. exact HP.
    + intros t t' E. rewrite <- !app_assoc in E. apply app_inv_head in E. apply app_inv_head in E.
      rewrite !bits_of_bytes_app, <- !app_assoc in E.
      apply app_eq_len in E; [|rewrite !bits_of_bytes_length; reflexivity]. destruct E as [E _].
      apply bits_of_bytes_inj in E; [|apply le16_ok; assumption|apply be_bytes_ok; assumption].
      assert (S : symmetric_length data).
      { unfold symmetric_length. fold n. apply be_le_symmetric; [assumption|]. now symmetry. }
      destruct (be_le_both data S HL) as [E1 E2]. fold n in E1, E2. rewrite E1, E2. split; [reflexivity|].
      rewrite <- E1, <- E2. constructor; [exact S|]. now constructor.
  - destruct fixed_length_tree as (lt & EL & TL). destruct fixed_distance_tree as (dt & ED & TD & _).
    destruct (body_written fixed_ll fixed_dl lt (Some dt) cs w TL fixed_ll_288 TD HB WF) as [(w' & CB & W & U)|[P (r & _ & _ & X)]].
    2:{ exfalso. exact (fixed_has_285 X). }
    left. exists (lsb 2 1 ++ w'). split.
    + intros out _. cbn [compressed_block]. apply writes_bind; [apply (writes_bits_val out 2 1); lia|].
      eapply writes_lift_ok; [exact EL|]. eapply writes_lift_ok; [exact ED|]. apply W.
    + intros t t' E. rewrite <- !app_assoc in E. apply app_inv_head in E. rewrite (U _ _ E). split; [reflexivity|]. now constructor.
  - destruct (dyn_tables _ _ _ HD) as (lt & dt & ER & TL & LL & TD).
    destruct (body_written ll dl lt dt cs w TL LL TD HB WF) as [(w' & CB & W & U)|[P (r & HI & H258 & X)]].
    2:{ right. split; [|exists ll, dl, hdr, cs, r; auto]. cbn [compressed_block].
        eapply panics_bind_r; [intro out; apply (writes_bits_val out 2 2); lia|].
        eapply panics_bind_r; [intro out; apply writes_vec|].
        eapply panics_lift; [exact ER|]. exact P. }
    left. exists (lsb 2 2 ++ hdr ++ w'). split.
    + intros out _. cbn [compressed_block]. apply writes_bind; [apply (writes_bits_val out 2 2); lia|].
      apply writes_bind; [apply writes_vec|]. eapply writes_lift_ok; [exact ER|]. apply W.
    + intros t t' E. rewrite <- !app_assoc in E. apply app_inv_head in E. apply app_inv_head in E.
      rewrite (U _ _ E). split; [reflexivity|]. econstructor; eassumption.
Qed.

Lemma block_canonical off b w : canonical_block off b w -> block_wf b ->
  forall out, (List.length out = off)%nat -> writes out (compressed_block b) w.
Proof.
  intros HB WF out HO. destruct HB as [data w S HB | cs w HB | ll dl hdr cs w HD HB].
  - inversion HB as [d k HL OD HP| |]; subst. destruct (be_le_both data S HL) as [E1 E2]. rewrite E1, E2.
    cbn [compressed_block]. apply writes_bind; [apply (writes_bits_val out 2 0); lia|].
    apply writes_length_prefixed; auto. rewrite app_length, lsb_length. exact HP.
  - destruct fixed_length_tree as (lt & EL & TL). destruct fixed_distance_tree as (dt & ED & TD & _).
    cbn [compressed_block]. apply writes_bind; [apply (writes_bits_val out 2 1); lia|].
    eapply writes_lift_ok; [exact EL|]. eapply writes_lift_ok; [exact ED|].
    exact (body_canonical fixed_ll fixed_dl lt (Some dt) cs w TL fixed_ll_288 TD HB WF _).
  - destruct (dyn_tables _ _ _ HD) as (lt & dt & ER & TL & LL & TD).
    cbn [compressed_block]. apply writes_bind; [apply (writes_bits_val out 2 2); lia|].
    apply writes_bind; [apply writes_vec|]. eapply writes_lift_ok; [exact ER|].
    exact (body_canonical ll dl lt dt cs w TL LL TD HB WF _).
Qed.

Lemma block_bits_shift off b w : block_bits off b w -> forall off', exists w', block_bits off' b w'.
Proof.
  intros [data k HL OD HP | cs w0 HB | ll dl hdr cs w0 HD HB] off'.
  - destruct (pads_exists (off' + 2)) as (k' & HP'). eexists. econstructor; eassumption.
  - eexists. econstructor; eassumption.
  - eexists. econstructor; eassumption.
Qed.

(** ** Streams *)
Lemma stream_canonical off bs w : canonical_stream off bs w -> Forall block_wf bs ->
  forall out, (List.length out = off)%nat -> writes out (compress_blocks bs) w.
Proof.
  induction 1 as [off b w k HB HP | off b bs w ws HN HB HS IH]; intros WF out HO; inversion WF; subst; cbn [compress_blocks].
  - apply (writes_bind out _ _ [true]); [apply writes_bit|].
    apply writes_bind; [apply (block_canonical (List.length out + 1)); auto; rewrite app_length; reflexivity|].
    apply writes_align. rewrite !app_length. exact HP.
  - destruct bs as [|b1 bs]; [contradiction|].
    apply (writes_bind out _ _ [false]); [apply writes_bit|].
    apply writes_bind; [apply (block_canonical (List.length out + 1)); auto; rewrite app_length; reflexivity|].
    apply IH; [assumption|]. rewrite !app_length. reflexivity.
Qed.

Lemma compress_all_writes bs w : writes [] (compress_blocks bs) w -> (List.length w mod 8 = 0)%nat ->
  compress_all bs = Ok (pack w).
Proof.
  intros W HM. destruct (W _ wst_new) as (w' & E & WS). cbn [app] in WS. unfold compress_all. rewrite E. cbn [obind].
  destruct (wst_into_inner _ _ WS HM) as (s & EI & HB & HO). rewrite EI. cbn [obind].
  rewrite <- HB. now rewrite pack_bits_of_bytes.
Qed.

(** Whatever is written extends what was written before. *)
Lemma compress_blocks_grows bs : forall st st' out, wst out st -> Forall block_wf bs -> forall off w, stream_bits off bs w ->
  compress_blocks bs st = (Ok tt, st') -> exists x, wst (out ++ x) st'.
Proof.
  induction bs as [|b bs IH]; intros st st' out HW WF off w HS E; [inversion HS|].
  inversion WF as [|? ? WF1 WF2]; subst. cbn [compress_blocks] in E.
  apply bind_inv in E. destruct E as ([] & s1 & E1 & E). apply bind_inv in E. destruct E as ([] & s2 & E2 & E).
  set (fl := match bs with [] => true | _ => false end) in *.
  destruct (writes_bit out fl st HW) as (s1' & E1' & W1). rewrite E1 in E1'. injection E1' as <-.
  assert (HB : exists off' w', block_bits off' b w') by (inversion HS; subst; eauto). destruct HB as (off' & w' & HB).
  destruct (block_bits_shift _ _ _ HB (List.length (out ++ [fl]))) as (w2 & HB2).
  destruct (block_written _ _ _ HB2 WF1) as [(w3 & WW & _)|[P _]].
  2:{ destruct (P _ _ W1) as (msg & x & EP). congruence. }
  destruct (WW (out ++ [fl]) eq_refl _ W1) as (s2' & E2' & W2). rewrite E2 in E2'. injection E2' as <-.
  destruct bs as [|b1 bs].
  - cbn [compress_blocks] in E. destruct (pads_exists (List.length ((out ++ [fl]) ++ w3))) as (k' & HP').
    destruct (writes_align _ _ HP' _ W2) as (s3 & E3 & W3). rewrite E in E3. injection E3 as <-.
    eexists. rewrite <- !app_assoc in W3. exact W3.
  - inversion HS as [|? ? ? ? ? ? ? HS']; subst.
    destruct (IH s2 st' _ W2 WF2 _ _ HS' E) as (x & WX). eexists. rewrite <- !app_assoc in WX. exact WX.
Qed.

Lemma stream_matches off bs w : stream_bits off bs w -> Forall block_wf bs ->
  forall out st st' t, (List.length out = off)%nat -> wst out st -> compress_blocks bs st = (Ok tt, st') ->
    wst (out ++ w ++ t) st' -> canonical_stream off bs w /\ t = [].
Proof.
  assert (WU : forall o1 o2 st, wst o1 st -> wst o2 st -> o1 = o2).
  { intros o1 o2 st (_ & p1 & _ & C1 & L1 & ->) (_ & p2 & _ & C2 & L2 & ->). f_equal.
    rewrite C1 in C2. unfold bitvec_of in C2. injection C2 as EP EL.
    destruct p1 as [|a p1], p2 as [|b p2]; try discriminate; [reflexivity|].
    rewrite !pack_short in EP by (try discriminate; lia). injection EP as EP. apply lsb_value_inj; [exact EL|exact EP]. }
  induction 1 as [off b w k HB HP | off b bs w ws HN HB HS IH]; intros WF out st st' t HO HW E HE;
    inversion WF as [|? ? WF1 WF2]; subst; cbn [compress_blocks] in E.
  - destruct (writes_bit out true st HW) as (s1 & E1 & W1).
    apply bind_inv in E. destruct E as ([] & s1' & E1' & E). rewrite E1 in E1'. injection E1' as <-.
    apply bind_inv in E. destruct E as ([] & s2 & E2 & E).
    destruct (block_written _ _ _ HB WF1) as [(w' & WW & U)|[P _]].
    2:{ destruct (P _ _ W1) as (msg & x & EP). congruence. }
    destruct (WW (out ++ [true]) ltac:(rewrite app_length; reflexivity) _ W1) as (s2' & E2' & W2).
    rewrite E2 in E2'. injection E2' as <-.
    destruct (pads_exists (List.length ((out ++ [true]) ++ w'))) as (k' & HP').
    destruct (writes_align _ _ HP' _ W2) as (s3 & E3 & W3). rewrite E in E3. injection E3 as <-.
    assert (EO := WU _ _ _ HE W3). rewrite <- !app_assoc in EO. apply app_inv_head in EO. cbn [app] in EO. injection EO as EO.
    rewrite <- !app_assoc in EO. destruct (U _ _ EO) as [-> CB]. apply app_inv_head in EO.
    assert (k' = k).
    { apply (pads_unique _ _ _ HP'). rewrite !app_length. exact HP. }
    subst k'. split; [now constructor|]. rewrite <- (app_nil_r (repeat false k)) in EO at 2. now apply app_inv_head in EO.
  - destruct bs as [|b1 bs]; [contradiction|].
    destruct (writes_bit out false st HW) as (s1 & E1 & W1).
    apply bind_inv in E. destruct E as ([] & s1' & E1' & E). rewrite E1 in E1'. injection E1' as <-.
    apply bind_inv in E. destruct E as ([] & s2 & E2 & E).
    destruct (block_written _ _ _ HB WF1) as [(w' & WW & U)|[P _]].
    2:{ destruct (P _ _ W1) as (msg & x & EP). congruence. }
    destruct (WW (out ++ [false]) ltac:(rewrite app_length; reflexivity) _ W1) as (s2' & E2' & W2).
    rewrite E2 in E2'. injection E2' as <-.
    (* what the remaining blocks write extends the output *)
    destruct (compress_blocks_grows (b1 :: bs) s2 st' _ W2 WF2 _ _ HS E) as (x & WX).
    assert (EO := WU _ _ _ HE WX). rewrite <- !app_assoc in EO. apply app_inv_head in EO. cbn [app] in EO. injection EO as EO.
    rewrite <- !app_assoc in EO. destruct (U _ _ EO) as [-> CB].
    destruct (IH WF2 ((out ++ [false]) ++ w') s2 st' t) as [CS ET]; auto.
    { rewrite !app_length. reflexivity. }
    { replace (((out ++ [false]) ++ w') ++ ws ++ t) with (out ++ (false :: w' ++ ws) ++ t); [exact HE|].
      rewrite <- !app_assoc. cbn [app]. now rewrite <- !app_assoc. }
    split; [|exact ET]. now constructor.
Qed.
