(** Proofs of C100. *)
From Verif Require Import Base M_bit M_lib M_circles M_gzip M_parse M_serialise M_all_refs M_technique M_trace M_rezippers Spec Spec_encoder Clients Clients_members Clients_encoder Clients_compress
  L_bits L_ring L_ser L_parse L_P_parse L_search L_P_search L_tech L_P_tech L_trace L_strace L_P_trace L_P_ser2 L_P_rez L_P_reach L_P_harness L_P_members L_P_encoder.
From Coq Require Import ZArith ZifyBool ZifyNat ZifyN.
Ltac Zify.zify_post_hook ::= Z.div_mod_to_equations.
Local Open Scope N_scope.
Local Open Scope model_scope.

(** ** How long a fixed block is *)
Lemma fixed_word s w : rfc_code fixed_ll s = Some w -> s = 257 -> List.length w = 7%nat.
Proof. intros H ->. vm_compute in H. injection H as <-. reflexivity. Qed.

Lemma length_rows n s x e : table_row length_table n s x e -> 257 <= s /\ x <= 5 /\ (n = 3 -> s = 257 /\ x = 0).
Proof.
  intro H. assert (X := length_extra_5 _ _ _ _ H). destruct H as (base & HI & E1 & E2).
  assert (F : forallb (fun p => (257 <=? fst (fst p)) && ((snd p <=? 2) || (3 <? snd p) || (fst (fst p) =? 257) && (snd (fst p) =? 0)) && (3 <=? snd p)) length_table = true) by reflexivity.
  rewrite forallb_forall in F. apply F in HI. cbn [fst snd] in HI. lia.
Qed.

Lemma fixed_code_9 c w : code_bits fixed_ll fixed_dl c w -> (List.length w <= 9 * code_len c)%nat.
Proof.
  intros [b w' HB H|r ls lx le lw ds dx de dw H1 H2 H3 H4].
  - apply fixed_code_bits in H. cbn [code_len]. lia.
  - apply length_rows in H1. apply distance_extra_13 in H3. apply fixed_dist_bits in H4.
    assert (W := fixed_code_bits _ _ H2). assert (V := fixed_word _ _ H2). rewrite !app_length, !lsb_length. cbn [code_len]. unfold ref_len in *.
    destruct (N.eq_dec (r_run_minus_3 r) 0) as [Z|Z]; lia.
Qed.

Lemma fixed_body_9 cs w : body_bits fixed_ll fixed_dl cs w -> (List.length w <= 9 * codes_len cs + 7)%nat.
Proof.
  unfold codes_len. induction 1 as [w H|c cs w ws H _ IH].
  - apply fixed_code_bits in H. cbn. lia.
  - apply fixed_code_9 in H. rewrite app_length. cbn [map list_sum fold_right] in *. unfold list_sum in *. cbn [fold_right]. lia.
Qed.

Lemma fixed_stream_9 css : forall off w, stream_bits off (map FixedHuffman css) w ->
  (List.length w <= 9 * codes_len (List.concat css) + 10 * List.length css + 7)%nat.
Proof.
  assert (CL : forall a b, codes_len (a ++ b) = (codes_len a + codes_len b)%nat) by (intros; unfold codes_len; now rewrite map_app, list_sum_app).
  induction css as [|cs css IH]; intros off w H; inversion H as [? ? w' k HB HP E1 E2|? ? ? w' ws NE HB HS E1 E2]; subst; cbn [List.concat List.length]; rewrite CL.
  - inversion HB; subst. match goal with X : body_bits _ _ _ _ |- _ => apply fixed_body_9 in X end. destruct HP as [HP _].
    rewrite !app_length, lsb_length, repeat_length. destruct css; [|discriminate]. cbn [List.concat List.length]. lia.
  - apply IH in HS. inversion HB; subst. match goal with X : body_bits _ _ _ _ |- _ => apply fixed_body_9 in X end.
    rewrite !app_length, lsb_length. lia.
Qed.

(** ** The guesses *)
Lemma guesses_traced config preroll data limit refs n codes : bytes_ok preroll -> bytes_ok data -> with_sixteen preroll data limit = Ok refs ->
  restore (repeat Correct n) (mkTechnique config refs) = Ok codes ->
  encodes preroll data codes /\ Forall code_ok codes /\ trace codes (mkTechnique config refs) = Ok (repeat Correct (List.length codes)).
Proof.
  intros B1 B2 EW ER. destruct (proj2 (C39_lemma config preroll data limit refs B1 B2 EW) n codes ER) as (HE & HO). split; [exact HE|]. split; [exact HO|].
  destruct (trace_lemma config preroll data limit refs codes B1 B2 EW HE) as (hints & ET & EL & _ & HC & _). rewrite ET. f_equal.
  assert (AC : forall h, In h hints -> h = Correct).
  { apply HC. set (t := mkTechnique config refs) in *. destruct (technique_of config _ _ _ _ EW) as (R & EP & ELn & _). fold t in R, EP, ELn.
    assert (HB : bytes_ok (preroll ++ data)) by now apply Forall_app.
    destruct (generates_exists _ t R HB (S (List.length (preroll ++ data))) (scanner t)) as (cs & HG & _); [lia|rewrite EP, app_length; lia|].
    assert (RC := restore_corrects _ t R HB (S (sc_data_len t)) (scanner t) cs n HG ltac:(rewrite EP, app_length; lia) ltac:(rewrite ELn; lia)).
    unfold restore in ER. rewrite RC in ER. destruct (_ <=? _)%nat; [|discriminate]. injection ER as <-. exact HG. }
  rewrite <- EL. clear -AC. induction hints as [|h hints IH]; [reflexivity|]. cbn [repeat List.length]. rewrite (AC h) by now left. f_equal. apply IH. intros x HX. apply AC. now right.
Qed.

Lemma pieces_guessed config limit pieces : Forall bytes_ok pieces -> forall before, bytes_ok before ->
  exists css, guess_pieces config limit before pieces = Ok css /\ List.length css = List.length pieces /\ Forall (Forall code_ok) css
    /\ lz_decode 32768 before (List.concat css) = Some (before ++ List.concat pieces).
Proof.
  intro HP. induction HP as [|d pieces HD HP IH]; intros before HB; cbn [guess_pieces].
  - exists []. cbn [List.concat lz_decode]. rewrite app_nil_r. repeat split; constructor.
  - destruct (with_sixteen_ok (lastn (N.to_nat 32768) before) d limit) as (refs & EW & _). rewrite EW. cbn [obind].
    destruct (proj1 (C39_lemma config _ d limit refs (L_restore.lastn_bytes _ _ HB) HD EW) (List.length d) (le_n _)) as (codes & ER). rewrite ER. cbn [obind].
    destruct (guesses_traced config _ d limit refs _ codes (L_restore.lastn_bytes _ _ HB) HD EW ER) as (HE & HO & _). apply window_encodes in HE.
    destruct (IH (before ++ d)) as (css & E1 & E2 & E3 & E4); [now apply Forall_app|]. rewrite E1. cbn [obind].
    exists (codes :: css). split; [reflexivity|]. cbn [List.length List.concat]. split; [now rewrite E2|]. split; [now constructor|].
    rewrite lz_decode_app, HE, E4. now rewrite app_assoc.
Qed.

Lemma emitted_len cs : emitted cs = codes_len cs.
Proof. unfold codes_len. induction cs as [|c cs IH]; [reflexivity|]. cbn [emitted map]. rewrite IH. change (list_sum (code_len c :: map code_len cs)) with (code_len c + list_sum (map code_len cs))%nat. f_equal. now destruct c. Qed.

Lemma C100_lemma : forall config limit header pieces, gzip_header header -> bytes_ok header -> pieces <> [] -> Forall bytes_ok pieces ->
  let content := List.concat pieces in
  exists css stream file, guess_pieces config limit [] pieces = Ok css /\ compress_all (map FixedHuffman css) = Ok stream
    /\ file = header ++ stream ++ le32_bytes (crc32 content) ++ le32_bytes (N.of_nat (List.length content) mod 2 ^ 32)
    /\ member content file /\ bytes_ok file
    /\ (forall e, cat_run (mkSource file e) new_sink = (Ok tt, mkSink content None))
    /\ (8 * List.length stream <= 9 * List.length content + 10 * List.length pieces + 7)%nat.
Proof.
  intros config limit header pieces GH BH NE HP content. destruct (pieces_guessed config limit pieces HP [] ltac:(constructor)) as (css & E1 & E2 & E3 & E4).
  exists css. assert (NB : map FixedHuffman css <> []) by (destruct css, pieces; try discriminate E2; try discriminate; congruence).
  assert (BO : Forall block_ok (map FixedHuffman css)) by (apply Forall_map; exact E3).
  destruct (blocks_ok_writes _ NB BO 0) as (w & HM & W). cbn [Nat.add] in HM. assert (EC := compress_all_writes _ _ (W [] eq_refl) HM).
  exists (pack w). eexists. split; [exact E1|]. split; [exact EC|]. split; [reflexivity|].
  destruct (C18_lemma_exact (map FixedHuffman css) UnexpectedEof NB BO) as (bytes & EC2 & RT & _). rewrite EC in EC2. injection EC2 as <-.
  destruct RT as (it & EP & EI). { intros data HI. apply in_map_iff in HI as (? & X & _). discriminate. }
  assert (BP : bytes_ok (pack w)) by apply pack_bytes_ok.
  destruct (proj1 (C23_lemma (pack w) UnexpectedEof (map FixedHuffman css) [] BP) (ex_intro _ it (conj EP EI))) as (used & EU & HS). rewrite app_nil_r in EU. subst used.
  assert (EN : encodes [] content (flat_map block_codes (map FixedHuffman css))) by (rewrite flat_map_concat_map, map_map; cbn [block_codes]; rewrite map_id; exact E4).
  assert (MM : member content (header ++ pack w ++ le32_bytes (crc32 content) ++ le32_bytes (N.of_nat (List.length content) mod 2 ^ 32))) by (exists header, (pack w), (map FixedHuffman css); auto).
  assert (BL : forall v, bytes_ok (le32_bytes v)) by (intro v; unfold le32_bytes; repeat (constructor; [unfold is_byte; lia|]); constructor).
  assert (BF : bytes_ok (header ++ pack w ++ le32_bytes (crc32 content) ++ le32_bytes (N.of_nat (List.length content) mod 2 ^ 32))) by (unfold bytes_ok in *; rewrite !Forall_app; auto).
  split; [exact MM|]. split; [exact BF|]. split.
  - intro e. apply (C82_lemma_trailer header (pack w) _ content _ e BF GH HS EN).
  - apply fixed_stream_9 in HS. rewrite bits_of_bytes_length in HS. apply lz_decode_length in E4. rewrite emitted_len in E4. fold content in E4. cbn [app List.length] in E4. lia.
Qed.

(** ** No hints are needed *)
Lemma C100_lemma_hints : forall config preroll data limit refs n codes, bytes_ok preroll -> bytes_ok data -> with_sixteen preroll data limit = Ok refs ->
  restore (repeat Correct n) (mkTechnique config refs) = Ok codes ->
  exists hints bytes, trace codes (mkTechnique config refs) = Ok hints /\ st_write hints = Ok bytes
    /\ N.of_nat (List.length bytes) = 2 * ((N.of_nat (List.length codes) + 32766) / 32767).
Proof.
  intros config preroll data limit refs n codes B1 B2 EW ER. destruct (guesses_traced config preroll data limit refs n codes B1 B2 EW ER) as (_ & _ & ET).
  destruct codes as [|c codes].
  - exists [], []. split; [exact ET|]. split; reflexivity.
  - destruct (C45_lemma_runs [] (List.length (c :: codes)) [] ltac:(cbn; lia) ltac:(discriminate) ltac:(discriminate)) as (a & run & b & EA & EB & ERn & EL).
    cbn in EA, EB. injection EA as <-. injection EB as <-. rewrite !app_nil_r in ERn. cbn [app] in ERn. eauto.
Qed.

(** ** The bound is reached *)
Lemma no_candidates w runs pos s r : nearest s = O -> ~ match_at w s runs pos r.
Proof.
  intros HN (refs & F & FB & _). rewrite HN in F. unfold candidates in F. cbn [firstn filter] in F. rewrite firstn_nil in F. inversion F; subst.
  destruct FB as (before & after & E & _). destruct before; discriminate.
Qed.

Lemma literal_choice w config runs pos b : nth_error w pos = Some b -> choice_of w config 0 runs pos [Literal b].
Proof.
  intro E. assert (NM : no_match (finds w config 0 runs pos)) by (intros r H; revert H; apply no_candidates; reflexivity).
  unfold choice_of. destruct (cfg_lookahead config); [now apply greedy_literal|now apply lazy_literal|now apply three_none].
Qed.

Lemma literal_encoder w config lim : forall rest pos runs, skipn pos w = rest -> encoder w lim (choice_of w config 0) runs pos (map Literal rest).
Proof.
  induction rest as [|b rest IH]; intros pos runs E.
  - apply encoder_end. apply (f_equal (@List.length N)) in E. rewrite skipn_length in E. cbn in E. lia.
  - assert (EN : nth_error w pos = Some b) by (rewrite <- (firstn_skipn pos w), nth_error_app2, E; [|rewrite firstn_length; lia];
      assert (L := f_equal (@List.length N) E); rewrite skipn_length in L; cbn [List.length] in L; rewrite firstn_length; replace (pos - Nat.min pos (List.length w))%nat with O by lia; reflexivity).
    change (map Literal (b :: rest)) with ([Literal b] ++ map Literal rest). apply encoder_step.
    + apply nth_error_Some. congruence.
    + now apply literal_choice.
    + apply IH. change (codes_len [Literal b]) with 1%nat. rewrite Nat.add_comm, <- skipn_skipn, E. reflexivity.
Qed.

Lemma pieces_literal config pieces : Forall bytes_ok pieces -> forall before, bytes_ok before -> guess_pieces config 0 before pieces = Ok (map (map Literal) pieces).
Proof.
  intro HP. induction HP as [|d pieces HD HP IH]; intros before HB; [reflexivity|]. cbn [guess_pieces map].
  destruct (with_sixteen_ok (lastn (N.to_nat 32768) before) d 0) as (refs & EW & _). rewrite EW. cbn [obind].
  rewrite (proj2 (C58_lemma_restore config (lastn (N.to_nat 32768) before) d 0 refs (map Literal d) (List.length d) (L_restore.lastn_bytes _ _ HB) HD EW)).
  - cbn [obind]. rewrite IH by (now apply Forall_app). reflexivity.
  - split; [|now rewrite map_length]. apply literal_encoder. rewrite skipn_app, Nat.sub_diag, skipn_all. reflexivity.
Qed.

Lemma high_literal b w : 144 <= b -> code_bits fixed_ll fixed_dl (Literal b) w -> List.length w = 9%nat.
Proof.
  intros HB H. inversion H as [? ? LB E|]; subst. apply rfc_code_length in E as (n & E & -> & _).
  assert (F : forallb (fun k => match nth_error fixed_ll k with Some n => n =? 9 | None => false end) (seq 144 112) = true) by (vm_compute; reflexivity).
  rewrite forallb_forall in F. specialize (F (N.to_nat b) ltac:(apply in_seq; lia)). rewrite E in F. lia.
Qed.

Lemma high_body d : Forall (fun b => 144 <= b) d -> forall w, body_bits fixed_ll fixed_dl (map Literal d) w -> List.length w = (9 * List.length d + 7)%nat.
Proof.
  intro F. induction F as [|b d HB F IH]; intros w H; inversion H as [? E|? ? w' ws HC HS]; subst.
  - apply fixed_code_bits in E. cbn. lia.
  - apply (high_literal _ _ HB) in HC. apply IH in HS. rewrite app_length. cbn [List.length]. lia.
Qed.

Lemma high_stream pieces : Forall (Forall (fun b => 144 <= b)) pieces -> forall off w, stream_bits off (map FixedHuffman (map (map Literal) pieces)) w ->
  (9 * List.length (List.concat pieces) + 10 * List.length pieces <= List.length w)%nat.
Proof.
  intro F. induction F as [|d pieces HD F IH]; intros off w H; inversion H as [? ? w' k HB HP E1 E2|? ? ? w' ws NE HB HS E1 E2]; subst; cbn [List.concat List.length];
    rewrite !app_length; inversion HB; subst; match goal with X : body_bits _ _ _ _ |- _ => apply (high_body _ HD) in X end; rewrite app_length, lsb_length.
  - destruct pieces; [|discriminate]. cbn [List.concat List.length]. lia.
  - apply IH in HS. lia.
Qed.

Lemma C100_lemma_reached : forall config pieces, pieces <> [] -> Forall (Forall (fun b => 144 <= b < 256)) pieces ->
  exists css stream, guess_pieces config 0 [] pieces = Ok css /\ compress_all (map FixedHuffman css) = Ok stream
    /\ (9 * List.length (List.concat pieces) + 10 * List.length pieces <= 8 * List.length stream)%nat.
Proof.
  intros config pieces NE F. assert (HP : Forall bytes_ok pieces) by (eapply Forall_impl; [|exact F]; intros d HD; eapply Forall_impl; [|exact HD]; unfold is_byte; intros ? HA; cbv beta in *; lia).
  assert (HI : Forall (Forall (fun b => 144 <= b)) pieces) by (eapply Forall_impl; [|exact F]; intros d HD; eapply Forall_impl; [|exact HD]; intros ? HA; cbv beta in *; lia).
  set (h := [31; 139; 8; 0; 0; 0; 0; 0; 0; 3]). assert (GH : gzip_header h) by (exists 0, [0; 0; 0; 0; 0; 3], [], [], [], []; repeat split).
  destruct (C100_lemma config 0 h pieces GH ltac:(repeat constructor) NE HP) as (css & stream & _ & E1 & E2 & _). exists css, stream. split; [exact E1|]. split; [exact E2|].
  rewrite (pieces_literal config pieces HP [] ltac:(constructor)) in E1. injection E1 as <-.
  assert (NB : map FixedHuffman (map (map Literal) pieces) <> []) by (destruct pieces; [congruence|discriminate]).
  assert (BO : Forall block_ok (map FixedHuffman (map (map Literal) pieces))).
  { apply Forall_map, Forall_map. eapply Forall_impl; [|exact HP]. intros d HD. apply Forall_map. exact HD. }
  destruct (C18_lemma_exact _ UnexpectedEof NB BO) as (bytes & EC2 & RT & _). rewrite E2 in EC2. injection EC2 as <-.
  destruct RT as (it & EP & EI). { intros data HX. apply in_map_iff in HX as (? & X & _). discriminate. }
  destruct (blocks_ok_writes _ NB BO 0) as (w & HM & W). cbn [Nat.add] in HM. assert (EC := compress_all_writes _ _ (W [] eq_refl) HM). rewrite E2 in EC. injection EC as ->.
  destruct (proj1 (C23_lemma (pack w) UnexpectedEof _ [] (pack_bytes_ok w)) (ex_intro _ it (conj EP EI))) as (used & EU & HS). rewrite app_nil_r in EU. subst used.
  apply (high_stream _ HI) in HS. rewrite bits_of_bytes_length in HS. lia.
Qed.
