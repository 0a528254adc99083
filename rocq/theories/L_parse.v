(** Lemmas: blocks and block iterator against the stream grammar. *)
From Verif Require Import Base M_bit M_lib M_code_tree M_huffman M_parse Spec Clients L_bits L_reader L_bitprops L_stored L_tree L_huff L_header L_safe.
From Coq Require Import ZArith ZifyBool ZifyNat ZifyN.
Ltac Zify.zify_post_hook ::= Z.div_mod_to_equations.
Local Open Scope N_scope.
Local Open Scope model_scope.

(** ** A block, on bit lists *)
Definition lb_scan (k : eofk) (lt : code_tree) (dt : option code_tree) : M (list bool) (list Code) :=
  fun bs => scan_loop (rbl k) (S (List.length bs)) lt dt bs.

Definition lb_codes (k : eofk) : M (list bool) ((code_tree * option code_tree) * bitvec) :=
  fun bs =>
    match read_codes (rbl k) bs with
    | (Ok trees, bs') => (Ok (trees, bitvec_of (firstn (List.length bs - List.length bs') bs)), bs')
    | (Err e, bs') => (Err e, bs')
    | (Panic m, bs') => (Panic m, bs')
    | (Diverge, bs') => (Diverge, bs')
    end.

Definition lb_stored (k : eofk) : M (list bool) (list N) := lb_align_loop k 9 ;;; lb_length_prefixed k.

Definition lb_read_block (k : eofk) : M (list bool) Block :=
  ty <- read_part (rbl k) 2 ;;
  if ty =? 0 then
    data <- lb_stored k ;; ret (Uncompressed data)
  else if ty =? 1 then
    length <- lift FIXED_LENGTH_TREE ;;
    distance <- lift FIXED_DISTANCE_TREE ;;
    codes <- lb_scan k length (Some distance) ;;
    ret (FixedHuffman codes)
  else if ty =? 2 then
    r <- lb_codes k ;;
    let '((length, distance), trees) := r in
    codes <- lb_scan k length distance ;;
    ret (DynamicHuffman trees codes)
  else if ty =? 3 then fail "reserved block type"
  else panic "unreachable".

Lemma sim_scan_data (R : list bool -> bit_reader -> Prop) e lt dt : (forall bs r, R bs r -> Rbr e bs r) -> sim R (rbl (EofErr (EIo e))) br_read_bit ->
  sim R (lb_scan (EofErr (EIo e)) lt dt) (scan_huffman_data lt dt).
Proof.
  intros HR HS bs r H. unfold lb_scan, scan_huffman_data.
  rewrite <- (Rbr_length _ _ _ (HR _ _ H)).
  exact (sim_scan_loop R _ _ HS (S (List.length bs)) lt dt bs r H).
Qed.

Lemma sim_codes_collected (R : list bool -> bit_reader -> Prop) k : sim R (rbl k) br_read_bit -> sim R (lb_codes k) read_codes_collected.
Proof.
  intros HS bs r H. unfold lb_codes, read_codes_collected.
  assert (R0 : Rbc R bs bs (r, bv_new)).
  { split; [exact H|]. exists []. split; reflexivity. }
  destruct (sim_read_codes _ _ _ (sim_bc R k br_read_bit bs HS) bs (r, bv_new) R0) as ([r' v] & E & R1 & c & EV & EC).
  rewrite E. cbn [fst snd] in *.
  destruct (read_codes (rbl k) bs) as [o bs'] eqn:EB. cbn [fst snd] in *.
  destruct o; cbn [fst snd]; exists r'; (split; [|exact R1]); try reflexivity.
  rewrite EV. do 4 f_equal. subst bs. rewrite app_length.
  replace (List.length c + List.length bs' - List.length bs')%nat with (List.length c) by lia.
  now rewrite firstn_app, Nat.sub_diag, firstn_all, firstn_O, app_nil_r.
Qed.

Lemma sim_stored e : sim (Rbr e) (lb_stored (EofErr (EIo e))) (br_align ;;; br_read_length_prefixed).
Proof.
  intros bs r HR. unfold lb_stored, bind.
  destruct (lb_align_loop_spec (EofErr (EIo e)) 9 bs) as [I1 I2]; [lia|].
  destruct (sim_br_align_loop e 9 bs r HR) as (r' & E & R').
  assert (EA : br_align r = br_align_loop 9 r).
  { unfold br_align, bind at 1. now rewrite (Rbr_untracked _ _ _ HR). }
  rewrite EA, E.
  set (p := firstn (List.length bs mod 8) bs) in *.
  destruct (list_eq_dec Bool.bool_dec p (repeat false (List.length p))) as [Hp|Hp].
  - rewrite (I1 Hp) in *. cbn [fst snd] in *.
    assert (RA : Rbra e (skipn (List.length bs mod 8) bs) r').
    { split; [exact R'|]. rewrite skipn_length. lia. }
    destruct (sim_length_prefixed e _ _ RA) as (r2 & E2 & R2). exists r2. split; [exact E2|apply R2].
  - destruct (I2 Hp) as (bs' & E' & _). rewrite E' in *. cbn [fst snd] in *. exists r'. auto.
Qed.

Lemma sim_ext {S A} (R : list bool -> S -> Prop) (m1 : M _ A) m2 m2' :
  sim R m1 m2 -> (forall s, m2' s = m2 s) -> sim R m1 m2'.
Proof. intros H E bs s HR. rewrite E. now apply H. Qed.

Lemma bind_assoc {S A B C} (m : M S A) (f : A -> M S B) (g : B -> M S C) s :
  bind m (fun a => bind (f a) g) s = bind (bind m f) g s.
Proof. unfold bind. destruct (m s) as [[] ]; reflexivity. Qed.

Lemma sim_read_block e : sim (Rbr e) (lb_read_block (EofErr (EIo e))) read_block.
Proof.
  unfold lb_read_block, read_block.
  apply sim_bind; [apply sim_read_part, sim_br_read_bit|]. intro ty.
  destruct (ty =? 0).
  { eapply sim_ext; [apply sim_bind; [apply sim_stored|intro; apply sim_ret]|].
    intro s. apply (bind_assoc br_align (fun _ => br_read_length_prefixed)). }
  destruct (ty =? 1).
  { apply sim_bind; [apply sim_lift|]. intro. apply sim_bind; [apply sim_lift|]. intro.
    apply sim_bind; [apply sim_scan_data; [auto|apply sim_br_read_bit]|]. intro; apply sim_ret. }
  destruct (ty =? 2).
  { apply sim_bind; [apply sim_codes_collected, sim_br_read_bit|]. intros [[lt dt] v].
    apply sim_bind; [apply sim_scan_data; [auto|apply sim_br_read_bit]|]. intro; apply sim_ret. }
  destruct (ty =? 3); [apply sim_fail|apply sim_panic].
Qed.

(** ** Against the grammar *)
Lemma lb_stored_ok k off bs data bs' : ((off + List.length bs) mod 8 = 0)%nat ->
  lb_stored k bs = (Ok data, bs') <->
  exists n, pads off n /\ N.of_nat (List.length data) < 65536 /\ bytes_ok data /\ ((List.length bs') mod 8 = 0)%nat
     /\ bs = repeat false n ++ bits_of_bytes (le16_bytes (N.of_nat (List.length data))
                         ++ le16_bytes (65535 - N.of_nat (List.length data)) ++ data) ++ bs'.
Proof.
  intro HO. unfold lb_stored.
  destruct (lb_align_loop_spec k 9 bs) as [I1 I2]; [lia|].
  set (n := (List.length bs mod 8)%nat) in *. set (p := firstn n bs) in *.
  assert (LP : List.length p = n) by (unfold p; rewrite firstn_length; lia).
  rewrite LP in *.
  assert (PN : pads off n) by (split; lia).
  assert (PU : forall m, pads off m -> m = n) by (intros m [? ?]; destruct PN; lia).
  set (l := pack (skipn n bs)).
  assert (BL : bits_of_bytes l = skipn n bs).
  { apply bits_of_pack_full. rewrite skipn_length. lia. }
  assert (OL : bytes_ok l) by apply pack_bytes_ok.
  split.
  - intro E. apply bind_inv in E. destruct E as (u & b1 & E1 & E2).
    destruct (list_eq_dec Bool.bool_dec p (repeat false n)) as [Hp|Hp].
    2:{ destruct (I2 Hp) as (b' & E' & _). rewrite E' in E1. discriminate. }
    rewrite (I1 Hp) in E1. apply ok_inj in E1. destruct E1 as [_ <-].
    rewrite <- BL in E2. apply lb_length_prefixed_ok in E2; [|exact OL].
    destruct E2 as (t & HL & -> & EL). exists n.
    split; [exact PN|]. split; [exact HL|].
    assert (OD : bytes_ok data /\ bytes_ok t).
    { rewrite EL in OL. unfold bytes_ok in *. rewrite !Forall_app in OL. tauto. }
    split; [tauto|]. split; [rewrite bits_of_bytes_length; lia|].
    rewrite <- (firstn_skipn n bs) at 1. fold p. rewrite Hp, <- BL, EL. rewrite !bits_of_bytes_app, <- !app_assoc. reflexivity.
  - intros (m & HP & HL & OD & LB & EB). apply PU in HP. subst m.
    assert (EP : p = repeat false n /\ skipn n bs = bits_of_bytes (le16_bytes (N.of_nat (List.length data))
                         ++ le16_bytes (65535 - N.of_nat (List.length data)) ++ data) ++ bs').
    { apply app_eq_len; [rewrite repeat_length; exact LP|]. unfold p. rewrite firstn_skipn. exact EB. }
    destruct EP as [Hp ES]. rewrite (bind_ok _ _ _ _ _ (I1 Hp)). rewrite <- BL.
    apply lb_length_prefixed_ok; [exact OL|].
    exists (pack bs'). split; [exact HL|]. split; [symmetry; now apply bits_of_pack_full|].
    apply bits_of_bytes_inj; [exact OL| |].
    { unfold bytes_ok, le16_bytes. rewrite !Forall_app. repeat split; try (repeat constructor; unfold is_byte; lia); auto using pack_bytes_ok. 
 apply pack_bytes_ok. }
    rewrite BL, ES. rewrite !bits_of_bytes_app, <- !app_assoc. rewrite (bits_of_pack_full bs') by assumption. reflexivity.
Qed.

Lemma lb_codes_ok k bs lt dt v bs' : lb_codes k bs = (Ok ((lt, dt), v), bs') <->
  exists hdr, bs = hdr ++ bs' /\ v = bitvec_of hdr /\ header_trees (lt, dt) hdr.
Proof.
  unfold lb_codes. split.
  - destruct (read_codes (rbl k) bs) as [[[lt' dt']| | |] b] eqn:E; intro H; try discriminate.
    injection H as -> -> <- ->. apply read_codes_spec in E. destruct E as (w & -> & HT). exists w.
    split; [reflexivity|]. split; [|exact HT]. rewrite app_length.
    replace (List.length w + List.length bs' - List.length bs')%nat with (List.length w) by lia.
    now rewrite firstn_app, Nat.sub_diag, firstn_all, firstn_O, app_nil_r.
  - intros (hdr & -> & -> & HT).
    assert (E : read_codes (rbl k) (hdr ++ bs') = (Ok (lt, dt), bs')) by (apply read_codes_spec; eauto).
    rewrite E. rewrite app_length.
    replace (List.length hdr + List.length bs' - List.length bs')%nat with (List.length hdr) by lia.
    now rewrite firstn_app, Nat.sub_diag, firstn_all, firstn_O, app_nil_r.
Qed.

Definition block_wf (b : Block) : Prop :=
  match b with
  | Uncompressed d => bytes_ok d /\ N.of_nat (List.length d) < 65536
  | FixedHuffman cs | DynamicHuffman _ cs => Forall code_ok cs
  end.

Lemma block_sound k off bs b bs' : ((off + List.length bs) mod 8 = 0)%nat ->
  lb_read_block k bs = (Ok b, bs') -> exists w, bs = w ++ bs' /\ block_bits off b w /\ block_wf b.
Proof.
  intros HO E. unfold lb_read_block in E.
  apply bind_inv in E. destruct E as (ty & b1 & E1 & E).
  apply pspec_read_part in E1; [|lia]. destruct E1 as (w1 & -> & HT & ->). change (2 ^ 2) with 4 in HT.
  rewrite app_length, lsb_length in HO. change (N.to_nat 2) with 2%nat in *.
  destruct (N.eqb_spec ty 0) as [->|].
  { apply bind_inv in E. destruct E as (data & b2 & E2 & E). apply ok_inj in E. destruct E as [<- <-].
    apply (lb_stored_ok k (off + 2)) in E2; [|lia]. destruct E2 as (n & HP & HL & OD & _ & ->).
    exists (lsb 2 0 ++ repeat false n ++ bits_of_bytes (le16_bytes (N.of_nat (List.length data)) ++ le16_bytes (65535 - N.of_nat (List.length data)) ++ data)).
    split; [now rewrite <- !app_assoc|]. split; [now constructor|split; assumption]. }
  destruct (N.eqb_spec ty 1) as [->|].
  { destruct fixed_length_tree as (lt & EL & TL). destruct fixed_distance_tree as (dt & ED & TD & _).
    apply bind_inv in E. destruct E as (lt' & b2 & E2 & E). apply lift_inv in E2. destruct E2 as [E2 ->].
    apply bind_inv in E. destruct E as (dt' & b2 & E3 & E). apply lift_inv in E3. destruct E3 as [E3 ->].
    rewrite EL in E2. injection E2 as <-. rewrite ED in E3. injection E3 as <-.
    apply bind_inv in E. destruct E as (cs & b3 & E4 & E). apply ok_inj in E. destruct E as [<- <-].
    apply (scan_sound k fixed_ll fixed_dl) in E4; [|assumption|assumption]. destruct E4 as (w & -> & HB & HC).
    exists (lsb 2 1 ++ w). split; [now rewrite <- app_assoc|]. split; [now constructor|exact HC]. }
  destruct (N.eqb_spec ty 2) as [->|].
  { apply bind_inv in E. destruct E as ([[lt dt] v] & b2 & E2 & E).
    apply lb_codes_ok in E2. destruct E2 as (hdr & -> & -> & HT2).
    apply bind_inv in E. destruct E as (cs & b3 & E4 & E). apply ok_inj in E. destruct E as [<- <-].
    apply header_tables in HT2. destruct HT2 as (ll & dl & HD & TL & _ & TD).
    apply (scan_sound k ll dl) in E4; [|assumption|assumption]. destruct E4 as (w & -> & HB & HC).
    exists (lsb 2 2 ++ hdr ++ w). split; [now rewrite <- !app_assoc|]. split; [econstructor; eassumption|exact HC]. }
  destruct (ty =? 3); discriminate.
Qed.

Lemma block_complete k off b w bs' : block_bits off b w -> ((off + List.length (w ++ bs')) mod 8 = 0)%nat ->
  lb_read_block k (w ++ bs') = (Ok b, bs').
Proof.
  intros HB HO. unfold lb_read_block.
  assert (RP : forall v t, v < 4 -> read_part (rbl k) 2 (lsb 2 v ++ t) = (Ok v, t)).
  { intros v t Hv. apply pspec_read_part; [lia|]. exists (lsb 2 v). auto. }
  rewrite app_length in HO.
  destruct HB as [data n HL OD HP | cs w HB | ll dl hdr cs w HD HB]; rewrite ?app_length, lsb_length in HO; rewrite <- ?app_assoc.
  - rewrite (bind_ok _ _ _ _ _ (RP 0 _ eq_refl)). change (0 =? 0) with true. cbn iota.
    rewrite repeat_length, bits_of_bytes_length in HO.
    erewrite bind_ok; [reflexivity|]. apply (lb_stored_ok k (off + 2)).
    { rewrite !app_length, repeat_length, bits_of_bytes_length. lia. }
    exists n. split; [assumption|]. split; [assumption|]. split; [assumption|]. split; [destruct HP; lia|reflexivity].
  - rewrite (bind_ok _ _ _ _ _ (RP 1 _ eq_refl)). change (1 =? 0) with false. change (1 =? 1) with true. cbn iota.
    destruct fixed_length_tree as (lt & EL & TL). destruct fixed_distance_tree as (dt & ED & TD & _).
    rewrite EL, ED. unfold bind at 1, lift at 1. unfold bind at 1, lift at 1.
    erewrite bind_ok; [reflexivity|]. unfold lb_scan.
    apply (scan_complete k fixed_ll fixed_dl); auto. rewrite app_length. lia.
  - rewrite (bind_ok _ _ _ _ _ (RP 2 _ eq_refl)). change (2 =? 0) with false. change (2 =? 1) with false. change (2 =? 2) with true. cbn iota.
    destruct (header_build _ _ _ HD) as ([lt dt] & HT & E1 & E2). cbn [fst snd] in *.
    erewrite bind_ok by (apply lb_codes_ok; eauto). cbn iota.
    assert (TB : tree_of ll lt /\ dist_table dl dt).
    { destruct HD as [hlit hdist hclen cls items ws H1 H2 H3 HC FC CC HLL HDL HE HBb CL DO].
      split; [split; [assumption|lia]|]. destruct dt as [t|]; cbn.
      - destruct E2 as [NZ EDT]. assert (T := dist_tree_of_spec dl ltac:(lia) NZ). rewrite EDT in T. tauto.
      - subst dl. intro s. unfold rfc_code. destruct (N.to_nat s) as [|[|q]]; reflexivity. }
    destruct TB as [TL TD].
    erewrite bind_ok; [reflexivity|]. unfold lb_scan. apply (scan_complete k ll dl); auto. rewrite app_length. lia.
Qed.

Lemma block_bits_nonempty off b w : block_bits off b w -> (2 <= List.length w)%nat.
Proof. intros []; rewrite !app_length, lsb_length; lia. Qed.

(** ** Totality *)
Lemma safe_read_bytes e n : safe (lb_read_bytes (EofErr e) n).
Proof. intro bs. unfold lb_read_bytes. destruct (Nat.leb _ _); exact I. Qed.

Lemma safe_u16 e : safe (lb_u16 (EofErr e)).
Proof. unfold lb_u16. apply safe_bind; [apply safe_read_bytes|]. intros. apply safe_ret. Qed.

Lemma safe_stored e : safe (lb_stored (EofErr e)).
Proof.
  unfold lb_stored. apply safe_bind.
  - intro bs. destruct (lb_align_loop_spec (EofErr e) 9 bs) as [I1 I2]; [lia|].
    set (p := firstn (List.length bs mod 8) bs) in *.
    destruct (list_eq_dec Bool.bool_dec p (repeat false (List.length p))) as [Hp|Hp].
    + rewrite (I1 Hp). exact I.
    + destruct (I2 Hp) as (b' & E' & _). rewrite E'. exact I.
  - intros _ _ _ _. unfold lb_length_prefixed. apply safe_bind; [apply safe_u16|]. intros ? _ _ _.
    apply safe_bind; [apply safe_u16|]. intros ? _ _ _. apply safe_bind; [apply safe_ensure|]. intros. apply safe_read_bytes.
Qed.

Lemma safe_lb_scan e ll lt dt : tree_of ll lt -> safe (lb_scan (EofErr e) lt dt).
Proof. intros H bs. unfold lb_scan. eapply safe_scan; eauto. Qed.

Lemma safe_block e : safe (lb_read_block (EofErr e)).
Proof.
  unfold lb_read_block. apply safe_bind; [apply safe_read_part; lia|]. intros ty bs bs' E.
  apply pspec_read_part in E; [|lia]. destruct E as (w1 & -> & HT & ->). change (2 ^ 2) with 4 in HT.
  destruct (N.eqb_spec ty 0). { apply safe_bind; [apply safe_stored|intros; apply safe_ret]. }
  destruct (N.eqb_spec ty 1).
  { destruct fixed_length_tree as (lt & EL & TL). destruct fixed_distance_tree as (dt & ED & TD & _).
    rewrite EL, ED. apply safe_bind; [apply safe_lift; exact I|]. intros ? ? ? E. apply lift_inv in E. destruct E as [E _]. injection E as <-.
    apply safe_bind; [apply safe_lift; exact I|]. intros ? ? ? E. 
    apply safe_bind; [eapply safe_lb_scan; eassumption|intros; apply safe_ret]. }
  destruct (N.eqb_spec ty 2).
  { apply safe_bind.
    - intro b. unfold lb_codes. assert (S := safe_read_codes e b). destruct (read_codes _ b) as [[]]; cbn in *; auto.
    - intros [[lt dt] v] b b' E. apply lb_codes_ok in E. destruct E as (hdr & _ & _ & HT2).
      apply header_tables in HT2. destruct HT2 as (ll & dl & HD & TL & _ & TD).
      apply safe_bind; [eapply safe_lb_scan; eassumption|intros; apply safe_ret]. }
  replace (ty =? 3) with true by (symmetry; apply N.eqb_eq; lia). apply safe_fail.
Qed.

(** ** Iterator *)
Definition at_bits (e : errkind) (bs : list bool) (it : block_iter) : Prop := Rbr e bs (bi_inner it).

Lemma br_align_at e bs r : Rbr e bs r ->
  exists o bs' r', br_align r = (o, r') /\ Rbr e bs' r' /\
   ((o = Ok tt /\ bs = repeat false (List.length bs mod 8) ++ bs' /\ (List.length bs' mod 8 = 0)%nat)
    \/ ((exists er, o = Err er) /\ ~ exists n t, pads n (List.length bs mod 8) /\ bs = repeat false (List.length bs mod 8) ++ t)).
Proof.
  intro HR. destruct (br_align_spec e bs r HR) as [I1 I2].
  set (n := (List.length bs mod 8)%nat) in *. set (p := firstn n bs) in *.
  assert (LP : List.length p = n) by (unfold p; rewrite firstn_length; lia). rewrite LP in *.
  destruct (list_eq_dec Bool.bool_dec p (repeat false n)) as [Hp|Hp].
  - destruct (I1 Hp) as (r' & E & R'). exists (Ok tt), (skipn n bs), r'. split; [exact E|]. split; [exact R'|].
    left. split; [reflexivity|]. split; [rewrite <- Hp; unfold p; now rewrite firstn_skipn|]. rewrite skipn_length. lia.
  - destruct (I2 Hp) as (b' & r' & E & R' & _). eexists _, b', r'. split; [exact E|]. split; [exact R'|].
    right. split; [eauto|]. intros (m & t & _ & EB). apply Hp. unfold p. rewrite EB at 1.
    rewrite firstn_app, repeat_length, Nat.sub_diag, firstn_O, app_nil_r. apply firstn_all2. rewrite repeat_length. lia.
Qed.

Lemma drain_complete e off blocks w : stream_bits off blocks w -> forall bs' it fuel,
  at_bits e (w ++ bs') it -> bi_end it = false -> ((off + List.length (w ++ bs')) mod 8 = 0)%nat ->
  (List.length blocks < fuel)%nat ->
  exists it', bi_drain fuel it = (Ok blocks, it') /\ at_bits e bs' it' /\ bi_end it' = true.
Proof.
  induction 1 as [off b w n HB HP | off b bs w ws HN HB HS IH]; intros bs' it fuel HA HE HO HF.
  - destruct fuel as [|[|fuel]]; [cbn in HF; lia|cbn in HF; lia|].
    destruct it as [r en]. cbn [bi_end bi_inner] in *. subst en. unfold at_bits in *. cbn [bi_inner] in HA.
    cbn [app] in HA. destruct (sim_br_read_bit e _ _ HA) as (r1 & E1 & R1). cbn [rbl fst snd] in E1, R1.
    cbn [app] in HO. rewrite <- app_assoc in R1, HO. cbn [List.length] in HO.
    destruct (sim_read_block e _ _ R1) as (r2 & E2 & R2).
    rewrite (block_complete _ (off + 1) b w) in E2, R2; [|assumption|lia|assumption|lia]. cbn [fst snd] in *.
    rewrite !app_length, repeat_length in HO. destruct HP as [HP1 HP2].
    assert (NM : (List.length (repeat false n ++ bs') mod 8 = n)%nat).
    { rewrite app_length, repeat_length. lia. }
    destruct (br_align_at e _ _ R2) as (o & b' & r3 & E3 & R3 & [(-> & EB & LB)|((er & ->) & NX)]); rewrite NM in *.
    2:{ exfalso. apply NX. exists (off + 1 + List.length w)%nat, bs'. repeat split; auto. }
    apply app_inv_head in EB. subst b'.
    exists (mkBlockIter r3 true). split; [|split; [exact R3|reflexivity]].
    cbn [bi_drain]. unfold bind at 1, bi_next at 1. cbn [bi_end bi_inner]. rewrite E1, E2.
    unfold bind at 1. unfold bind at 1, bi_next at 1. cbn [bi_end bi_inner]. rewrite E3. reflexivity.
  - destruct fuel as [|fuel]; [cbn in HF; lia|].
    destruct it as [r en]. cbn [bi_end bi_inner] in *. subst en. unfold at_bits in *. cbn [bi_inner] in HA.
    cbn [app] in HA. destruct (sim_br_read_bit e _ _ HA) as (r1 & E1 & R1). cbn [rbl fst snd] in E1, R1.
    cbn [app] in HO. rewrite <- app_assoc in R1, HO. cbn [List.length] in HO.
    destruct (sim_read_block e _ _ R1) as (r2 & E2 & R2).
    rewrite (block_complete _ (off + 1) b w) in E2, R2; [|assumption|lia|assumption|lia]. cbn [fst snd] in *.
    destruct (IH bs' (mkBlockIter r2 false) fuel) as (it' & E3 & A3 & EE3); [exact R2|reflexivity| |cbn [List.length] in HF; lia|].
    { rewrite !app_length in *. lia. }
    exists it'. split; [|auto].
    cbn [bi_drain]. unfold bind at 1, bi_next at 1. cbn [bi_end bi_inner]. rewrite E1, E2.
    unfold bind. rewrite E3. reflexivity.
Qed.

Lemma drain_sound e fuel : forall off bs it, at_bits e bs it -> ((off + List.length bs) mod 8 = 0)%nat ->
  (List.length bs + 2 <= fuel)%nat -> bi_end it = false ->
  match bi_drain fuel it with
  | (Ok blocks, it') => exists w bs', bs = w ++ bs' /\ stream_bits off blocks w /\ Forall block_wf blocks
                         /\ at_bits e bs' it' /\ bi_end it' = true
  | (Err _, _) => True
  | _ => False
  end.
Proof.
  induction fuel as [|fuel IH]; intros off bs it HA HO HF HE; [lia|].
  destruct it as [r en]. cbn [bi_end] in HE. subst en. unfold at_bits in HA. cbn [bi_inner] in HA.
  cbn [bi_drain]. unfold bind at 1, bi_next at 1. cbn [bi_end bi_inner].
  destruct (sim_br_read_bit e _ _ HA) as (r1 & E1 & R1). rewrite E1.
  destruct bs as [|fin bs]; cbn [rbl fst snd eof_out] in *; [exact I|].
  cbn [List.length] in *.
  destruct (sim_read_block e _ _ R1) as (r2 & E2 & R2). rewrite E2.
  assert (SB := safe_block (EIo e) bs).
  destruct (lb_read_block (EofErr (EIo e)) bs) as [o b2] eqn:EB. cbn [fst snd] in *.
  destruct o as [b| | |]; cbn in SB; try tauto.
  apply (block_sound _ (off + 1)) in EB; [|lia]. destruct EB as (w & -> & HB & WF).
  assert (NE := block_bits_nonempty _ _ _ HB). rewrite app_length in *.
  destruct fin.
  - destruct fuel as [|fuel]; [lia|]. cbn [bi_drain].
    unfold bind at 1. unfold bind at 1, bi_next at 1. cbn [bi_end bi_inner].
    destruct (br_align_at e _ _ R2) as (o & b' & r3 & E3 & R3 & [(-> & EB & LB)|((er & ->) & NX)]); rewrite E3; [|exact I].
    cbn [ret]. unfold ret. exists (true :: w ++ repeat false (List.length b2 mod 8)), b'.
    split; [cbn [app]; rewrite <- app_assoc, <- EB; reflexivity|].
    split; [constructor; [assumption|split; lia]|]. split; [repeat constructor; assumption|]. split; [exact R3|reflexivity].
  - specialize (IH (off + 1 + List.length w)%nat b2 (mkBlockIter r2 false) R2 ltac:(lia) ltac:(lia) eq_refl).
    unfold bind. destruct (bi_drain fuel (mkBlockIter r2 false)) as [o it'].
    destruct o as [bl| | |]; try tauto. unfold ret.
    destruct IH as (ws & t & -> & HS & FW & HA' & HE').
    exists (false :: w ++ ws), t. split; [cbn [app]; now rewrite <- app_assoc|].
    split; [|split; [constructor; assumption|auto]].
    constructor; try assumption. inversion HS; subst; discriminate.
Qed.

(** ** A whole stream of bytes *)
Lemma stream_bits_length off blocks w : stream_bits off blocks w -> (List.length blocks <= List.length w)%nat.
Proof. induction 1; cbn [List.length]; rewrite ?app_length; lia. Qed.

Lemma stream_bits_aligned off blocks w : stream_bits off blocks w -> ((off + List.length w) mod 8 = 0)%nat.
Proof.
  induction 1 as [off b w n HB HP | off b bs w ws HN HB HS IH]; cbn [List.length]; rewrite app_length.
  - rewrite repeat_length. destruct HP. lia.
  - lia.
Qed.

Lemma Rbr_bytes e t r : Rbr e (bits_of_bytes t) r -> bytes_ok t -> rest (br_inner r) = t /\ at_end (br_inner r) = e /\ br_remaining r = 0.
Proof.
  intros HR HT. assert (HM := Rbr_rem _ _ _ HR). rewrite bits_of_bytes_length in HM.
  destruct HR as (H1 & H2 & H3 & H4 & H5).
  assert (H0 : br_remaining r = 0) by lia. rewrite H0 in H5. change (8 - N.to_nat 0)%nat with 8%nat in H5.
  rewrite skipn_all2 in H5 by (rewrite lsb_length; lia). cbn [app] in H5.
  split; [|split; [exact H3|exact H0]]. symmetry. now apply bits_of_bytes_inj.
Qed.

Theorem parse_all_iff bytes e blocks tail : bytes_ok bytes ->
  (exists it, parse_all (mkSource bytes e) = (Ok blocks, it) /\ br_into_inner (bi_inner it) = Ok (mkSource tail e))
  <-> exists used, bytes = used ++ tail /\ stream_bits 0 blocks (bits_of_bytes used).
Proof.
  intro HB. assert (R0 := Rbr_new (mkSource bytes e) HB). cbn [rest at_end] in R0.
  unfold parse_all, parse_deflate. cbn [rest]. split.
  - intros (it & E & EI).
    assert (D := drain_sound e (8 * List.length bytes + 2) 0 (bits_of_bytes bytes) (mkBlockIter (br_new (mkSource bytes e)) false) R0).
    rewrite bits_of_bytes_length in D. specialize (D ltac:(lia) ltac:(lia) eq_refl). rewrite E in D.
    destruct D as (w & bs' & EB & HS & _ & HA & _).
    assert (AL := stream_bits_aligned _ _ _ HS). cbn [Nat.add] in AL.
    destruct (bits_of_bytes_app_inv bytes w (pack bs')) as (_ & EU & ET).
    { rewrite bits_of_pack_full; [exact EB|].
      assert (L := f_equal (@List.length bool) EB). rewrite app_length, bits_of_bytes_length in L. lia. }
    exists (firstn (List.length w / 8) bytes). rewrite EU. split; [|exact HS].
    assert (EP : bits_of_bytes (pack bs') = bs').
    { apply bits_of_pack_full. assert (L := f_equal (@List.length bool) EB). rewrite app_length, bits_of_bytes_length in L. lia. }
    unfold at_bits in HA. rewrite <- EP in HA. apply Rbr_bytes in HA; [|apply pack_bytes_ok].
    destruct HA as (HR & _).
    assert (ETL : tail = pack bs').
    { rewrite <- HR. unfold br_into_inner in EI.
      destruct (br_assert_untracked (bi_inner it)) as [[] ]; try discriminate.
      destruct (br_assert_aligned (bi_inner it)) as [[] ]; try discriminate. injection EI as EI. now rewrite EI. }
    rewrite ETL. rewrite <- (firstn_skipn (List.length w / 8) bytes) at 1. f_equal.
    apply bits_of_bytes_inj; [now apply bytes_ok_skipn|apply pack_bytes_ok|].
    rewrite <- skipn_bits. rewrite EB, EP. replace (8 * (List.length w / 8))%nat with (List.length w) by lia.
    now rewrite skipn_app, skipn_all, Nat.sub_diag.
  - intros (used & -> & HS). rewrite bits_of_bytes_app in R0.
    destruct (drain_complete e 0 blocks _ HS (bits_of_bytes tail) (mkBlockIter (br_new (mkSource (used ++ tail) e)) false) (8 * List.length (used ++ tail) + 2)) as (it' & E & A & EE).
    + exact R0.
    + reflexivity.
    + rewrite <- bits_of_bytes_app, bits_of_bytes_length. lia.
    + apply stream_bits_length in HS. rewrite bits_of_bytes_length in HS. rewrite app_length. lia.
    + exists it'. split; [exact E|].
      unfold bytes_ok in HB. rewrite Forall_app in HB.
      assert (A' := A). apply Rbr_bytes in A'; [|tauto]. destruct A' as (A1 & A2 & A3).
      unfold br_into_inner. rewrite (Rbr_untracked _ _ _ A).
      unfold br_assert_aligned, bind. rewrite (br_position_spec _ _ _ A), bits_of_bytes_length.
      replace ((8 - (8 * List.length tail) mod 8) mod 8)%nat with 0%nat by lia. cbn [N.of_nat assert_ N.eqb].
      unfold assert_, ret. cbn. destruct (br_inner (bi_inner it')). cbn in *. now subst.
Qed.

Theorem parse_all_total bytes e : bytes_ok bytes -> returns (fst (parse_all (mkSource bytes e))).
Proof.
  intro HB. assert (R0 := Rbr_new (mkSource bytes e) HB). cbn [rest at_end] in R0.
  assert (D := drain_sound e (8 * List.length bytes + 2) 0 (bits_of_bytes bytes) (mkBlockIter (br_new (mkSource bytes e)) false) R0).
  rewrite bits_of_bytes_length in D. specialize (D ltac:(lia) ltac:(lia) eq_refl).
  unfold parse_all, parse_deflate. cbn [rest]. destruct (bi_drain _ _) as [[]]; cbn; tauto.
Qed.

Theorem parse_all_wf bytes e blocks it : bytes_ok bytes -> parse_all (mkSource bytes e) = (Ok blocks, it) ->
  Forall block_wf blocks /\ exists used tail, bytes = used ++ tail /\ stream_bits 0 blocks (bits_of_bytes used) /\ br_into_inner (bi_inner it) = Ok (mkSource tail e).
Proof.
  intros HB E. assert (R0 := Rbr_new (mkSource bytes e) HB). cbn [rest at_end] in R0.
  assert (D := drain_sound e (8 * List.length bytes + 2) 0 (bits_of_bytes bytes) (mkBlockIter (br_new (mkSource bytes e)) false) R0).
  rewrite bits_of_bytes_length in D. specialize (D ltac:(lia) ltac:(lia) eq_refl).
  unfold parse_all, parse_deflate in E. cbn [rest] in E. rewrite E in D.
  destruct D as (w & bs' & EB & HS & FW & HA & HE). split; [exact FW|].
  assert (AL := stream_bits_aligned _ _ _ HS). cbn [Nat.add] in AL.
  assert (LB : (List.length bs' mod 8 = 0)%nat).
  { assert (L := f_equal (@List.length bool) EB). rewrite app_length, bits_of_bytes_length in L. lia. }
  exists (pack w), (pack bs'). split.
  - apply bits_of_bytes_inj; [assumption|unfold bytes_ok; rewrite Forall_app; split; apply pack_bytes_ok|].
    rewrite bits_of_bytes_app, !bits_of_pack_full by assumption. exact EB.
  - rewrite bits_of_pack_full by assumption. split; [exact HS|].
    unfold at_bits in HA. assert (A' := HA). rewrite <- (bits_of_pack_full bs') in A' by assumption.
    apply Rbr_bytes in A'; [|apply pack_bytes_ok]. destruct A' as (A1 & A2 & A3).
    unfold br_into_inner. rewrite (Rbr_untracked _ _ _ HA).
    unfold br_assert_aligned, bind. rewrite (br_position_spec _ _ _ HA).
    replace ((8 - List.length bs' mod 8) mod 8)%nat with 0%nat by lia. cbn.
    destruct (br_inner (bi_inner it)). cbn in *. now subst.
Qed.
