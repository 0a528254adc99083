(** Proofs of C99: the checksum that zero writes. *)
From Verif Require Import Base M_bit M_lib M_circles M_gzip M_parse M_serialise M_rezippers Spec Clients Clients_zero Clients_members
  L_bits L_P_rez L_P_zero L_P_rsync L_P_members.
From Coq Require Import ZArith ZifyBool ZifyNat ZifyN.
Ltac Zify.zify_post_hook ::= Z.div_mod_to_equations.
Local Open Scope N_scope.
Local Open Scope model_scope.

(** ** The shift register *)
Definition crc_poly : N := 3988292384.
Definition feed (f : bool) : N := if f then crc_poly else 0.

Lemma crc_step_eq c b : crc_step c b = N.lxor (N.shiftr c 1) (feed (xorb (N.odd c) b)).
Proof. unfold crc_step, feed. destruct (xorb (N.odd c) b); [reflexivity|]. now rewrite N.lxor_0_r. Qed.

Lemma small_bit c n : c < 2 ^ 32 -> 32 <= n -> N.testbit c n = false.
Proof.
  intros H L. destruct (N.eq_dec c 0) as [->|NZ]; [apply N.bits_0|]. apply N.bits_above_log2. assert (X := proj1 (N.log2_lt_pow2 c 32 ltac:(lia)) H). lia.
Qed.
Lemma bits_small c : (forall n, 32 <= n -> N.testbit c n = false) -> c < 2 ^ 32.
Proof.
  intro H. destruct (N.eq_dec c 0) as [->|NZ]; [reflexivity|]. apply N.log2_lt_pow2; [lia|]. destruct (N.lt_ge_cases (N.log2 c) 32) as [L|L]; [exact L|].
  assert (X := H _ L). rewrite N.bit_log2 in X by exact NZ. discriminate X.
Qed.

Lemma crc_step_small c b : c < 2 ^ 32 -> crc_step c b < 2 ^ 32.
Proof.
  intro H. apply bits_small. intros n L. rewrite crc_step_eq, N.lxor_spec, N.shiftr_spec'. rewrite (small_bit c) by (auto; lia).
  unfold feed. destruct (xorb (N.odd c) b); [|now rewrite N.bits_0]. rewrite (small_bit crc_poly n); [reflexivity|reflexivity|exact L].
Qed.

Lemma crc_step_top c b : c < 2 ^ 32 -> N.testbit (crc_step c b) 31 = xorb (N.odd c) b.
Proof.
  intro H. rewrite crc_step_eq, N.lxor_spec, N.shiftr_spec'. rewrite (small_bit c (31 + 1)) by (auto; lia). unfold feed. destruct (xorb (N.odd c) b); reflexivity.
Qed.

Lemma crc_step_back c b : N.shiftr c 1 = N.lxor (crc_step c b) (feed (xorb (N.odd c) b)).
Proof. rewrite crc_step_eq, N.lxor_assoc, N.lxor_nilpotent, N.lxor_0_r. reflexivity. Qed.

Notation run := (fold_left crc_step).

Lemma run_small bits : forall c, c < 2 ^ 32 -> run bits c < 2 ^ 32.
Proof. induction bits as [|b bits IH]; intros c H; cbn [fold_left]; [exact H|]. apply IH, crc_step_small, H. Qed.

Lemma shift_same_top c c' k : k <= 31 -> N.shiftr c k = N.shiftr c' k -> N.testbit c 31 = N.testbit c' 31.
Proof.
  intros L E. assert (X := N.shiftr_spec' c k (31 - k)). assert (Y := N.shiftr_spec' c' k (31 - k)). rewrite N.sub_add in X, Y by exact L. rewrite <- X, <- Y. now rewrite E.
Qed.

(** Two registers that end up the same were the same but for as many low bits as were fed in. *)
Lemma run_back : forall m m' c c', List.length m = List.length m' -> (List.length m <= 32)%nat -> c < 2 ^ 32 -> c' < 2 ^ 32 ->
  run m c = run m' c' -> N.shiftr c (N.of_nat (List.length m)) = N.shiftr c' (N.of_nat (List.length m)).
Proof.
  induction m as [|b m IH]; intros [|b' m'] c c' EL LE H H' E; try discriminate EL; cbn [fold_left List.length] in *.
  - now rewrite E.
  - assert (X := IH m' _ _ ltac:(lia) ltac:(lia) (crc_step_small c b H) (crc_step_small c' b' H') E).
    assert (T := shift_same_top _ _ (N.of_nat (List.length m)) ltac:(lia) X). rewrite !crc_step_top in T by assumption.
    replace (N.of_nat (S (List.length m))) with (1 + N.of_nat (List.length m)) by lia. rewrite <- !N.shiftr_shiftr.
    rewrite (crc_step_back c b), (crc_step_back c' b'), T, !N.shiftr_lxor. now rewrite X.
Qed.

(** Up to 32 bits can be told from the register. *)
Lemma run_bits : forall m m' c, List.length m = List.length m' -> (List.length m <= 32)%nat -> c < 2 ^ 32 -> run m c = run m' c -> m = m'.
Proof.
  induction m as [|b m IH]; intros [|b' m'] c EL LE H E; try discriminate EL; [reflexivity|]. cbn [fold_left List.length] in *.
  assert (X := run_back m m' _ _ ltac:(lia) ltac:(lia) (crc_step_small c b H) (crc_step_small c b' H) E).
  assert (T := shift_same_top _ _ (N.of_nat (List.length m)) ltac:(lia) X). rewrite !crc_step_top in T by assumption.
  assert (b = b') by (destruct (N.odd c), b, b'; cbn in T; congruence). subst b'. f_equal. apply (IH m' (crc_step c b)); auto; [lia|now apply crc_step_small].
Qed.

Lemma crc_step_inj c c' b : c < 2 ^ 32 -> c' < 2 ^ 32 -> crc_step c b = crc_step c' b -> c = c'.
Proof.
  intros H H' E. assert (T : xorb (N.odd c) b = xorb (N.odd c') b) by (rewrite <- !crc_step_top by assumption; now rewrite E).
  assert (S1 : N.shiftr c 1 = N.shiftr c' 1) by (rewrite (crc_step_back c b), (crc_step_back c' b), T, E; reflexivity).
  assert (O : N.odd c = N.odd c') by (destruct (N.odd c), (N.odd c'), b; cbn in T; congruence).
  rewrite <- !N.div2_spec in S1. rewrite (N.div2_odd c), (N.div2_odd c'), S1, O. reflexivity.
Qed.
Lemma run_inj bits : forall c c', c < 2 ^ 32 -> c' < 2 ^ 32 -> run bits c = run bits c' -> c = c'.
Proof.
  induction bits as [|b bits IH]; intros c c' H H' E; cbn [fold_left] in E; [exact E|]. apply (crc_step_inj c c' b H H'). apply IH; auto using crc_step_small.
Qed.

Lemma C99_lemma_burst : forall data data' before m m' after,
  bits_of_bytes data = before ++ m ++ after -> bits_of_bytes data' = before ++ m' ++ after ->
  List.length m = List.length m' -> (List.length m <= 32)%nat -> m <> m' -> crc32 data <> crc32 data'.
Proof.
  intros data data' a m m' b E E' EL LE NE EC. apply NE. unfold crc32 in EC. apply (f_equal (fun x => N.lxor x 4294967295)) in EC.
  rewrite !N.lxor_assoc, !N.lxor_nilpotent, !N.lxor_0_r, E, E', !fold_left_app in EC.
  assert (H : run a 4294967295 < 2 ^ 32) by (apply run_small; reflexivity).
  apply run_inj in EC; [|now apply run_small|now apply run_small]. apply (run_bits m m' _ EL LE H EC).
Qed.

Lemma crc32_small data : crc32 data < 2 ^ 32.
Proof.
  unfold crc32. apply bits_small. intros n L. rewrite N.lxor_spec. rewrite (small_bit 4294967295 n) by (auto; reflexivity).
  rewrite small_bit; [reflexivity| |exact L]. apply run_small. reflexivity.
Qed.

Lemma le32_inj v v' : v < 2 ^ 32 -> v' < 2 ^ 32 -> le32_bytes v = le32_bytes v' -> v = v'.
Proof. intros H H' E. unfold le32_bytes in E. injection E as E0 E1 E2 E3. lia. Qed.

(** ** Whole files *)
Definition trailer (content : list N) : list N := le32_bytes (crc32 content) ++ le32_bytes (N.of_nat (List.length content) mod 2 ^ 32).

Lemma le32_bytes_ok v : bytes_ok (le32_bytes v).
Proof. unfold le32_bytes. repeat constructor; unfold is_byte; lia. Qed.
Lemma trailer_ok content : bytes_ok (trailer content).
Proof. apply Forall_app. split; apply le32_bytes_ok. Qed.

Lemma chunks_small content chunks : bytes_ok content -> chunks_of content chunks -> (forall c, In c chunks -> N.of_nat (List.length c) <> 65536) ->
  content = flat_map (fun c => c) chunks /\ Forall (fun c => bytes_ok c /\ N.of_nat (List.length c) < 65536) chunks.
Proof.
  intros HC EC NC. destruct (C48_lemma content HC) as (cs & EC' & EF & FC & _). assert (cs = chunks) as -> by (unfold chunks_of in EC; congruence). split; [now symmetry|].
  assert (BC : Forall bytes_ok chunks) by (apply bytes_ok_flat; now rewrite EF). rewrite Forall_forall in *. intros c HI.
  split; [auto|]. destruct (FC c HI) as (_ & L & _). assert (X := NC c HI). lia.
Qed.

Lemma blocks_bytes pieces : Forall (fun c => bytes_ok c /\ N.of_nat (List.length c) < 65536) pieces -> bytes_ok (stored_blocks pieces).
Proof. intro F. rewrite <- stored_blocks_eq. apply chunks_bytes_ok. rewrite Forall_forall in *. intros c HI. now apply F. Qed.

Lemma same_tail (a b c d : list N) : a ++ b = c ++ d -> List.length b = List.length d -> a = c /\ b = d.
Proof.
  intros E L. assert (LA : List.length a = List.length c) by (apply (f_equal (@List.length N)) in E; rewrite !app_length in E; lia).
  revert c E LA. induction a as [|x a IH]; intros [|z c] E LA; cbn in LA; try lia; [now split|]. cbn in E. injection E as -> E.
  destruct (IH c E ltac:(lia)) as (-> & ->). now split.
Qed.

(** A file of stored blocks with any trailer of 8 bytes, printed by cat and checked by others. *)
Lemma framed header pieces tr : gzip_header header -> bytes_ok header -> pieces <> [] -> Forall (fun c => bytes_ok c /\ N.of_nat (List.length c) < 65536) pieces -> bytes_ok tr ->
  (forall e, cat_run (mkSource (header ++ stored_blocks pieces ++ tr) e) new_sink = (Ok tt, mkSink (flat_map (fun c => c) pieces) None))
  /\ (List.length tr = 8%nat -> forall c, member c (header ++ stored_blocks pieces ++ tr) <-> c = flat_map (fun c => c) pieces /\ tr = trailer c).
Proof.
  intros GH BH NE SC BT.
  assert (SB : stream_bits 0 (map Uncompressed pieces) (bits_of_bytes (stored_blocks pieces))) by (rewrite <- stored_blocks_eq; apply stream_of_chunks; [exact NE|exact SC|reflexivity]).
  assert (DE : encodes [] (flat_map (fun c => c) pieces) (flat_map block_codes (map Uncompressed pieces))) by exact (decode_stored pieces []).
  assert (BF : bytes_ok (header ++ stored_blocks pieces ++ tr)).
  { apply Forall_app. split; [exact BH|]. apply Forall_app. split; [now apply blocks_bytes|exact BT]. }
  assert (CAT : forall e, cat_run (mkSource (header ++ stored_blocks pieces ++ tr) e) new_sink = (Ok tt, mkSink (flat_map (fun c => c) pieces) None)).
  { intro e. apply (C82_lemma_trailer header _ _ _ tr e BF GH SB DE). }
  split; [exact CAT|]. intros LT c. split.
  - intro M. assert (CAT2 := C82_lemma_first c (header ++ stored_blocks pieces ++ tr) [] UnexpectedEof). rewrite !app_nil_r in CAT2. specialize (CAT2 BF M). rewrite CAT in CAT2.
    injection CAT2 as <-. split; [reflexivity|]. destruct M as (h & s & blocks & EF & _). fold (trailer (flat_map (fun c => c) pieces)) in EF. rewrite !app_assoc in EF.
    assert (EF2 : (header ++ stored_blocks pieces) ++ tr = (h ++ s) ++ trailer (flat_map (fun c => c) pieces)) by exact EF.
    apply same_tail in EF2; [|rewrite LT; reflexivity]. tauto.
  - intros (-> & ->). exists header, (stored_blocks pieces), (map Uncompressed pieces). now repeat (split; [assumption || reflexivity|]).
Qed.

Lemma C99_lemma_member : forall inflate header content file chunks, decompressor_right inflate -> bytes_ok file -> gzip_of header content file ->
  content <> [] -> chunks_of content chunks -> (forall c, In c chunks -> N.of_nat (List.length c) <> 65536) ->
  exists zeroed, (forall e, zero_run inflate (mkSource file e) new_sink = (Ok tt, mkSink zeroed None)) /\ member content zeroed.
Proof.
  intros inflate header content file chunks DR HB G NE EC NC.
  destruct (gzip_of_parts _ _ _ HB G) as (HH & HC & _ & body & BB & EF & GH & _). destruct (chunks_small content chunks HC EC NC) as (EC2 & SM).
  eexists. split; [apply (zeroed inflate header content file chunks); auto|]. rewrite stored_blocks_eq.
  assert (NP : chunks <> []) by (intros ->; cbn in EC2; congruence).
  destruct (framed header chunks (trailer content) GH HH NP SM (trailer_ok content)) as (_ & F). apply (F eq_refl). split; [exact EC2|reflexivity].
Qed.

Lemma C99_lemma_refuted : exists header content file, bytes_ok file /\ gzip_of header content file /\ content <> []
  /\ forall inflate e, decompressor_right inflate ->
       exists zeroed, zero_run inflate (mkSource file e) new_sink = (Ok tt, mkSink zeroed None) /\ bytes_ok zeroed /\ ~ member content zeroed.
Proof.
  destruct C78_lemma_refuted as (header & content & file & HB & G & NE & H). exists header, content, file. repeat (split; [assumption|]).
  intros inflate e DR. destruct (H inflate e DR) as (z & EZ & CZ). exists z. split; [exact EZ|].
  assert (BZ : bytes_ok z).
  { destruct (gzip_of_parts _ _ _ HB G) as (HH & HC & _). destruct (C48_lemma content HC) as (cs & EC & EF & _).
    rewrite (zeroed inflate header content file cs DR HB G NE EC e) in EZ. injection EZ as <-.
    apply Forall_app. split; [exact HH|]. apply Forall_app. split; [apply chunks_bytes_ok, bytes_ok_flat; now rewrite EF|]. exact (trailer_ok content). }
  split; [exact BZ|]. intro M. assert (X := C82_lemma_first content z [] UnexpectedEof). rewrite app_nil_r in X. specialize (X BZ M).
  rewrite CZ in X. injection X as X. now apply NE.
Qed.

Lemma blocks_split (before : list (list N)) (x m y : list N) after : exists s1 s2, forall n, List.length n = List.length m -> stored_blocks (before ++ (x ++ n ++ y) :: after) = s1 ++ n ++ s2.
Proof.
  assert (ONE : forall final, exists s1, forall n, List.length n = List.length m -> stored_block final (x ++ n ++ y) = s1 ++ n ++ y).
  { intro final. set (k := N.of_nat (List.length (x ++ m ++ y)) mod 65536). exists ([if final then 1 else 0] ++ le16_bytes k ++ le16_bytes (65535 - k) ++ x). intros n EL. unfold stored_block. cbv zeta.
    replace (List.length (x ++ n ++ y)) with (List.length (x ++ m ++ y)) by (rewrite !app_length; lia). fold k. rewrite <- !app_assoc. reflexivity. }
  induction before as [|b before (s1 & s2 & IH)].
  - destruct after as [|a after]; cbn [app stored_blocks].
    + destruct (ONE true) as (s1 & E). exists s1, y. exact E.
    + destruct (ONE false) as (s1 & E). exists s1, (y ++ stored_blocks (a :: after)). intros n EL. rewrite (E n EL), <- !app_assoc. reflexivity.
  - exists (stored_block false b ++ s1), s2. intros n EL. rewrite <- app_assoc, <- (IH n EL). cbn [app]. destruct (before ++ (x ++ n ++ y) :: after) eqn:E; [|reflexivity].
    apply app_eq_nil in E. destruct E; discriminate.
Qed.

Lemma le32_pair a b c d : le32_bytes a ++ le32_bytes b = le32_bytes c ++ le32_bytes d -> le32_bytes a = le32_bytes c /\ le32_bytes b = le32_bytes d.
Proof. intro E. apply same_tail in E; [exact E|reflexivity]. Qed.

Lemma C99_lemma_damage : forall inflate header content file before x m y after, decompressor_right inflate -> bytes_ok file -> gzip_of header content file ->
  content <> [] -> chunks_of content (before ++ (x ++ m ++ y) :: after) ->
  (forall c, In c (before ++ (x ++ m ++ y) :: after) -> N.of_nat (List.length c) <> 65536) ->
  exists start rest, (forall e, zero_run inflate (mkSource file e) new_sink = (Ok tt, mkSink (start ++ m ++ rest) None))
    /\ forall m', bytes_ok m' -> m' <> m -> List.length m' = List.length m -> (List.length m <= 4)%nat ->
      (forall e, cat_run (mkSource (start ++ m' ++ rest) e) new_sink
         = (Ok tt, mkSink (flat_map (fun c => c) before ++ x ++ m' ++ y ++ flat_map (fun c => c) after) None))
      /\ forall any, ~ member any (start ++ m' ++ rest).
Proof.
  intros inflate header content file before x m y after DR HB G NE EC NC.
  destruct (gzip_of_parts _ _ _ HB G) as (HH & HC & _ & body & BB & EF & GH & _). destruct (chunks_small content _ HC EC NC) as (EC2 & SM).
  destruct (blocks_split before x m y after) as (s1 & s2 & SP). exists (header ++ s1), (s2 ++ trailer content).
  assert (SHAPE : forall n, List.length n = List.length m -> (header ++ s1) ++ n ++ s2 ++ trailer content = header ++ stored_blocks (before ++ (x ++ n ++ y) :: after) ++ trailer content).
  { intros n EL. rewrite (SP n EL), <- !app_assoc. reflexivity. }
  split. { intro e. rewrite (SHAPE m eq_refl), <- stored_blocks_eq. now apply zeroed. }
  intros m' BM NM EL LE. rewrite (SHAPE m' EL).
  assert (SM2 : Forall (fun c => bytes_ok c /\ N.of_nat (List.length c) < 65536) (before ++ (x ++ m' ++ y) :: after)).
  { apply Forall_app in SM as (S1 & S2). inversion S2 as [|? ? (Bc & Lc) S3]; subst. apply Forall_app. split; [exact S1|]. constructor; [|exact S3].
    unfold bytes_ok in *. rewrite !Forall_app in *. rewrite !app_length in *. split; [tauto|lia]. }
  assert (FM : flat_map (fun c => c) (before ++ (x ++ m' ++ y) :: after) = flat_map (fun c => c) before ++ x ++ m' ++ y ++ flat_map (fun c => c) after).
  { rewrite flat_map_app. cbn [flat_map]. now rewrite <- !app_assoc. }
  assert (FM2 : content = flat_map (fun c => c) before ++ x ++ m ++ y ++ flat_map (fun c => c) after).
  { rewrite EC2, flat_map_app. cbn [flat_map]. now rewrite <- !app_assoc. }
  assert (NN : before ++ (x ++ m' ++ y) :: after <> []) by (intro X; apply app_eq_nil in X; destruct X; discriminate).
  destruct (framed header _ (trailer content) GH HH NN SM2 (trailer_ok content)) as (CAT & F). rewrite FM in CAT, F. split; [exact CAT|].
  intros any M. apply (F eq_refl) in M as (-> & ET). apply le32_pair in ET as (ET & _). apply le32_inj in ET; [|apply crc32_small|apply crc32_small].
  revert ET. assert (Bm : bytes_ok m) by (rewrite FM2 in HC; unfold bytes_ok in *; rewrite !Forall_app in HC; tauto).
  apply C99_lemma_burst with (before := bits_of_bytes (flat_map (fun c => c) before ++ x)) (m := bits_of_bytes m) (m' := bits_of_bytes m')
    (after := bits_of_bytes (y ++ flat_map (fun c => c) after)).
  - rewrite FM2, <- !bits_of_bytes_app. now rewrite <- !app_assoc.
  - rewrite <- !bits_of_bytes_app. now rewrite <- !app_assoc.
  - rewrite !bits_of_bytes_length. lia.
  - rewrite bits_of_bytes_length. lia.
  - intro X. apply NM. symmetry. now apply bits_of_bytes_inj.
Qed.

Lemma C99_lemma_trailer : forall inflate header content file chunks, decompressor_right inflate -> bytes_ok file -> gzip_of header content file ->
  content <> [] -> chunks_of content chunks -> (forall c, In c chunks -> N.of_nat (List.length c) <> 65536) ->
  exists start eight, List.length eight = 8%nat /\ (forall e, zero_run inflate (mkSource file e) new_sink = (Ok tt, mkSink (start ++ eight) None))
    /\ forall other, bytes_ok other -> List.length other = 8%nat -> other <> eight ->
      (forall e, cat_run (mkSource (start ++ other) e) new_sink = (Ok tt, mkSink content None)) /\ forall any, ~ member any (start ++ other).
Proof.
  intros inflate header content file chunks DR HB G NE EC NC.
  destruct (gzip_of_parts _ _ _ HB G) as (HH & HC & _ & body & BB & EF & GH & _). destruct (chunks_small content chunks HC EC NC) as (EC2 & SM).
  assert (NP : chunks <> []) by (intros ->; cbn in EC2; congruence).
  exists (header ++ stored_blocks chunks), (trailer content). split; [reflexivity|]. split.
  { intro e. rewrite <- stored_blocks_eq, <- app_assoc. now apply zeroed. }
  intros other BO LO NO. rewrite <- app_assoc. destruct (framed header chunks other GH HH NP SM BO) as (CAT & F). rewrite <- EC2 in CAT, F. split; [exact CAT|].
  intros any M. apply (F LO) in M as (-> & X). now apply NO.
Qed.
