(** Proofs of C78 and C79. *)
From Verif Require Import Base M_bit M_lib M_circles M_gzip M_parse M_serialise M_rezippers Spec Clients Clients_zero
  L_bits L_ring L_parse L_P_circ L_P_parse L_P_gzip L_rsync L_P_rez L_P_zero L_search L_P_search L_tech L_P_tech L_trace L_strace L_P_trace L_P_e2e.
From Coq Require Import ZArith ZifyBool ZifyNat ZifyN.
Ltac Zify.zify_post_hook ::= Z.div_mod_to_equations.
Local Open Scope N_scope.
Local Open Scope model_scope.

(** ** Chunks *)
Lemma chunks_chunked content chunks : bytes_ok content -> chunks_of content chunks ->
  flat_map (fun c => c) chunks = content /\ chunked chunks.
Proof.
  intros HB E. destruct (take_all_spec (S (List.length content)) content HB ltac:(lia)) as (cs & E' & EF & CH).
  unfold chunks_of in E. rewrite E in E'. injection E' as <-. auto.
Qed.

(** Two lists with a common beginning or end. *)
Lemma app_either {A} (a b c d : list A) : a ++ b = c ++ d ->
  a = c \/ (exists l, l <> [] /\ c = a ++ l) \/ (exists l, l <> [] /\ a = c ++ l).
Proof.
  revert c. induction a as [|x a IH]; intros c E.
  - destruct c as [|y c]; [now left|]. right. left. exists (y :: c). split; [discriminate|reflexivity].
  - destruct c as [|y c].
    + right. right. exists (x :: a). split; [discriminate|reflexivity].
    + cbn [app] in E. injection E as -> E. destruct (IH c E) as [->|[(l & NL & ->)|(l & NL & ->)]]; [now left|..].
      * right. left. exists l. auto.
      * right. right. exists l. auto.
Qed.

Lemma unbroken_prefix c l : rsync_unbroken (c ++ l) -> l <> [] -> 8192 <= N.of_nat (List.length c) -> ~ rsync_stop c.
Proof.
  intros U NL H S. apply (U (List.length c)); [exact H| |].
  - rewrite app_length. destruct l; [congruence|cbn [List.length]; lia].
  - rewrite firstn_app, Nat.sub_diag, firstn_all, firstn_O, app_nil_r. exact S.
Qed.

Lemma longer {A} (c l : list A) : l <> [] -> (List.length c < List.length (c ++ l))%nat.
Proof. intro. rewrite app_length. destruct l; [congruence|cbn [List.length]; lia]. Qed.

Lemma same_chunks cs : forall more y chunks, chunked (cs ++ more) -> more <> [] -> chunked chunks ->
  flat_map (fun c => c) chunks = flat_map (fun c => c) cs ++ y ->
  exists more', chunks = cs ++ more'.
Proof.
  induction cs as [|c cs IH]; intros more y chunks CH NM CH' E; [exists chunks; reflexivity|].
  cbn [app] in CH.
  assert (X : c :: cs ++ more <> [c]) by (intros [=X]; apply app_eq_nil in X; destruct X; congruence).
  assert (Y : chunked (c :: cs ++ more) -> N.of_nat (List.length c) <= 65536 /\ rsync_unbroken c /\ 8192 <= N.of_nat (List.length c)
     /\ (N.of_nat (List.length c) = 65536 \/ rsync_stop c) /\ chunked (cs ++ more)).
  { clear -X. intro H. inversion H; subst; [congruence|auto 6]. }
  destruct (Y CH) as (X2 & X3 & X4 & X5 & X6). clear X Y.
  cbn [flat_map] in E. rewrite <- app_assoc in E.
  assert (FIRST : exists chunks', chunks = c :: chunks').
  { inversion CH' as [|c' Y1 Y2 Y3|c' cs' Y1 Y2 Y3 Y4 Y5 Y6]; subst.
    - cbn [flat_map] in E. symmetry in E. apply app_eq_nil in E. destruct E as [-> _]. cbn [List.length] in X4. lia.
    - cbn [flat_map] in E. destruct (app_either _ _ _ _ E) as [->|[(l & NL & EC)|(l & NL & EC)]]; [eauto|..].
      + exfalso. subst c. rewrite app_nil_r in E. apply (f_equal (@List.length _)) in E. rewrite !app_length in E. assert (Z := longer c' l NL). rewrite app_length in Z. lia.
      + exfalso. subst c'. assert (Z := longer c l NL). destruct X5 as [X5|X5]; [lia|]. now apply (unbroken_prefix c l Y3 NL X4).
    - cbn [flat_map] in E. destruct (app_either _ _ _ _ E) as [->|[(l & NL & EC)|(l & NL & EC)]]; [eauto|..].
      + exfalso. subst c. assert (Z := longer c' l NL). destruct Y5 as [Y5|Y5]; [lia|]. now apply (unbroken_prefix c' l X3 NL Y4).
      + exfalso. subst c'. assert (Z := longer c l NL). destruct X5 as [X5|X5]; [lia|]. now apply (unbroken_prefix c l Y3 NL X4). }
  destruct FIRST as (chunks' & ->). cbn [flat_map] in E. apply app_inv_head in E.
  assert (CT : chunked chunks') by (inversion CH'; subst; auto; constructor).
  destruct (IH more y chunks' X6 NM CT E) as (more' & ->). exists more'. reflexivity.
Qed.

Lemma chunked_tail a : forall b, chunked (a ++ b) -> chunked b.
Proof.
  induction a as [|c a IH]; intros b CH; [exact CH|]. apply IH. cbn [app] in CH. inversion CH; subst; auto. constructor.
Qed.

Lemma chunked_unique chunks : forall chunks', chunked chunks -> chunked chunks' ->
  flat_map (fun c => c) chunks = flat_map (fun c => c) chunks' -> chunks = chunks'.
Proof.
  intros chunks' CH CH' E.
  assert (NN : forall l, chunked l -> flat_map (fun c : list N => c) l = [] -> l = []).
  { intros l H. inversion H as [|c Y1 Y2 Y3|c cs Y1 Y2 Y3 Y4 Y5 Y6]; subst; [auto|..]; cbn [flat_map]; intro X; apply app_eq_nil in X; destruct X as [-> _].
    - congruence. - cbn [List.length] in Y4. lia. }
  assert (X : chunks = [] \/ exists chunks0 c0, chunks = chunks0 ++ [c0]).
  { destruct chunks as [|x xs]; [now left|right]. destruct (exists_last (l := x :: xs) ltac:(discriminate)) as (l & a & ->). eauto. }
  destruct X as [->|(chunks0 & c0 & ->)]; [symmetry; apply NN; [exact CH'|]; now rewrite <- E|].
  assert (CL := chunked_tail _ _ CH).
  destruct (same_chunks chunks0 [c0] c0 chunks' CH ltac:(discriminate) CH') as (more & ->).
  { rewrite <- E, flat_map_app. cbn [flat_map]. now rewrite app_nil_r. }
  rewrite !flat_map_app in E. apply app_inv_head in E. cbn [flat_map] in E. rewrite app_nil_r in E. f_equal.
  assert (CM := chunked_tail _ _ CH').
  inversion CM as [|c Y1 Y2 Y3|c cs Y1 Y2 Y3 Y4 Y5 Y6]; subst more; cbn [flat_map] in E.
  - rewrite E in *. apply NN; [exact CL|reflexivity].
  - rewrite app_nil_r in E. now subst c0.
  - exfalso. subst c0. inversion CL as [|? Z1 Z2 Z3|? ? Z1]; subst; [|congruence].
    assert (NL : flat_map (fun c : list N => c) cs <> []) by (intro X; apply Y1, NN; auto).
    assert (Z := longer c _ NL). destruct Y5 as [Y5|Y5]; [lia|]. now apply (unbroken_prefix c _ Z3 NL Y4).
Qed.

(** The chunks before an edit stay. *)
Lemma C79_lemma_before : forall content edited before after rest chunks, bytes_ok content -> bytes_ok edited ->
  chunks_of content (before ++ after) -> after <> [] ->
  edited = flat_map (fun c => c) before ++ rest -> chunks_of edited chunks ->
  exists after', chunks = before ++ after'.
Proof.
  intros content edited before after rest chunks HB HB' E NA EE E'. destruct (chunks_chunked _ _ HB E) as [_ CH].
  destruct (chunks_chunked _ _ HB' E') as [EF CH']. apply (same_chunks before after rest); auto. now rewrite EF.
Qed.

(** The chunks after an edit are the same once a boundary is. *)
Lemma C79_lemma_after : forall content edited before before' after after', bytes_ok content -> bytes_ok edited ->
  chunks_of content (before ++ after) -> chunks_of edited (before' ++ after') ->
  flat_map (fun c => c) after = flat_map (fun c => c) after' -> after = after'.
Proof.
  intros content edited before before' after after' HB HB' E E' EQ. destruct (chunks_chunked _ _ HB E) as [_ CH].
  destruct (chunks_chunked _ _ HB' E') as [_ CH']. apply chunked_unique; eauto using chunked_tail.
Qed.

(** Wherever the sum of 8192 bytes is right, there is a boundary at most 8191 bytes before. *)
Lemma boundary_near chunks : chunked chunks -> forall p,
  (N.to_nat 8192 <= p <= List.length (flat_map (fun c => c) chunks))%nat ->
  rsync_stop (firstn p (flat_map (fun c => c) chunks)) ->
  exists before after, chunks = before ++ after
    /\ (p - N.to_nat 8192 < List.length (flat_map (fun c => c) before) <= p)%nat.
Proof.
  intros CH p HP ST.
  assert (LAST : forall cs q, chunked cs -> (q <= List.length (flat_map (fun c => c) cs))%nat ->
    exists before after, cs = before ++ after /\ (List.length (flat_map (fun c => c) before) <= q)%nat
      /\ (q = List.length (flat_map (fun c => c) before)
          \/ exists c more, after = c :: more /\ (q < List.length (flat_map (fun c => c) before) + List.length c)%nat /\ rsync_unbroken c)).
  { clear. induction cs as [|c cs IH]; intros q CH HQ.
    - exists [], []. split; [reflexivity|]. cbn [flat_map List.length] in *. split; [lia|left; lia].
    - assert (U : rsync_unbroken c) by (inversion CH; auto). cbn [flat_map] in HQ. rewrite app_length in HQ.
      destruct (Nat.ltb_spec q (List.length c)) as [X|X].
      + exists [], (c :: cs). split; [reflexivity|]. cbn [flat_map List.length]. split; [lia|]. right. exists c, cs. split; [reflexivity|]. split; [lia|exact U].
      + destruct (IH (q - List.length c)%nat (chunked_tail [c] cs CH) ltac:(lia)) as (b & a & -> & H1 & H2).
        exists (c :: b), a. split; [reflexivity|]. cbn [flat_map]. rewrite app_length. split; [lia|].
        destruct H2 as [H2|(c' & more & -> & H2 & H3)]; [left; lia|right]. exists c', more. split; [reflexivity|]. split; [lia|exact H3]. }
  destruct (LAST chunks p CH ltac:(lia)) as (before & after & -> & H1 & H2).
  exists before, after. split; [reflexivity|]. split; [|exact H1].
  destruct H2 as [H2|(c & more & -> & H2 & U)]; [lia|].
  destruct (Nat.ltb_spec (p - N.to_nat 8192) (List.length (flat_map (fun c => c) before))) as [X|X]; [exact X|exfalso].
  set (b := List.length (flat_map (fun c => c) before)) in *. apply (U (p - b)%nat); [lia|lia|].
  unfold rsync_stop in *. rewrite flat_map_app in ST. cbn [flat_map] in ST. rewrite firstn_app in ST. fold b in ST.
  rewrite (firstn_all2 (flat_map _ before)) in ST by (fold b; lia). rewrite firstn_app in ST.
  assert (Z : (p - b - List.length c = 0)%nat) by lia. rewrite Z, firstn_O, app_nil_r in ST.
  rewrite lastn_app_ge in ST by (rewrite firstn_length; lia). exact ST.
Qed.

Lemma C79_lemma_near : forall content chunks p, bytes_ok content -> chunks_of content chunks ->
  (N.to_nat 8192 <= p <= List.length content)%nat -> rsync_stop (firstn p content) ->
  exists before after, chunks = before ++ after
    /\ (p - N.to_nat 8192 < List.length (flat_map (fun c => c) before) <= p)%nat.
Proof.
  intros content chunks p HB E HP ST. destruct (chunks_chunked _ _ HB E) as [EF CH]. subst content.
  apply boundary_near; auto.
Qed.

(** ** zero and cat *)
Lemma gzip_of_parts header content file : bytes_ok file -> gzip_of header content file ->
  bytes_ok header /\ bytes_ok content /\ (forall e, cat_run (mkSource file e) new_sink = (Ok tt, mkSink content None))
  /\ exists body, bytes_ok body /\ file = header ++ body /\ gzip_header header
      /\ (forall e, discard_header (mkSource file e) = (Ok header, mkSource body e))
      /\ forall inflate e, decompressor_right inflate -> inflate (mkSource body e) = map inl content.
Proof.
  intros HB (stream & trailer & blocks & EF & GH & SB & HE). assert (HB2 := HB). rewrite EF in HB2. unfold bytes_ok in HB2. rewrite Forall_app in HB2.
  destruct HB2 as [HH HT]. split; [exact HH|].
  assert (CAT : forall e, cat_run (mkSource file e) new_sink = (Ok tt, mkSink content None)).
  { intro e. apply C47_lemma; [exact HB|]. exists header, stream, trailer, blocks. auto. }
  assert (P : exists it, parse_all (mkSource (stream ++ trailer) UnexpectedEof) = (Ok blocks, it)).
  { destruct (proj2 (parse_all_iff (stream ++ trailer) UnexpectedEof blocks trailer HT)) as (it & EP & _); eauto. }
  destruct P as (it & EP). destruct (parse_all_wf _ _ _ _ HT EP) as (WF & _).
  assert (HC : bytes_ok content).
  { unfold encodes in HE. cbn [app] in HE. eapply (lz_decode_bytes 32768 (flat_map block_codes blocks) []); [constructor| |exact HE].
    clear -WF. induction WF as [|b blocks WB WF IH]; cbn [flat_map]; [constructor|]. apply Forall_app. split; [|exact IH].
    unfold block_wf in WB. destruct b; cbn [block_codes]; auto. apply Forall_map. apply WB. }
  split; [exact HC|]. split; [exact CAT|]. exists (stream ++ trailer). split; [exact HT|]. split; [exact EF|]. split; [exact GH|].
  split; [intro e; apply C31_lemma; auto|]. intros inflate e DR. eapply DR; eauto.
Qed.

Lemma zeroed inflate header content file chunks : decompressor_right inflate -> bytes_ok file -> gzip_of header content file ->
  content <> [] -> chunks_of content chunks -> forall e, zero_run inflate (mkSource file e) new_sink
    = (Ok tt, mkSink (header ++ chunks_bytes chunks ++ le32_bytes (crc32 content) ++ le32_bytes (N.of_nat (List.length content) mod 2 ^ 32)) None).
Proof.
  intros DR HB G NE EC e. destruct (gzip_of_parts _ _ _ HB G) as (HH & HC & _ & body & BB & EF & GH & ED & EI).
  destruct (zero_run_ok inflate file e header body (map inl content) chunks new_sink (ED e) (EI _ _ DR)) as (_ & EQ & EZ).
  - destruct content; [congruence|discriminate]. - apply Forall_map. exact HC. - now rewrite map_length.
  - apply map_inl_inj in EQ. rewrite <- EQ in EZ. exact EZ.
Qed.

Lemma C78_lemma : forall inflate header content file chunks, decompressor_right inflate -> bytes_ok file ->
  gzip_of header content file -> content <> [] -> chunks_of content chunks ->
  (forall c, In c chunks -> N.of_nat (List.length c) <> 65536) ->
  exists zeroed,
    (forall e, zero_run inflate (mkSource file e) new_sink = (Ok tt, mkSink zeroed None))
    /\ gzip_of header content zeroed
    /\ (forall e e', cat_run (mkSource zeroed e) new_sink = cat_run (mkSource file e') new_sink)
    /\ forall other e, bytes_ok other -> gzip_of header content other ->
         zero_run inflate (mkSource other e) new_sink = (Ok tt, mkSink zeroed None).
Proof.
  intros inflate header content file chunks DR HB G NE EC NC.
  destruct (gzip_of_parts _ _ _ HB G) as (HH & HC & CAT & body & BB & EF & GH & ED & EI).
  eexists. split; [apply (zeroed inflate header content file chunks); auto|].
  assert (G2 : gzip_of header content (header ++ chunks_bytes chunks ++ le32_bytes (crc32 content) ++ le32_bytes (N.of_nat (List.length content) mod 2 ^ 32))).
  { exists (chunks_bytes chunks), (le32_bytes (crc32 content) ++ le32_bytes (N.of_nat (List.length content) mod 2 ^ 32)), (map Uncompressed chunks).
    split; [reflexivity|]. split; [exact GH|]. destruct (C48_lemma content HC) as (cs & EC' & EFl & FC & _).
    assert (cs = chunks) as -> by (unfold chunks_of in EC; congruence). split.
    - apply stream_of_chunks; [| |reflexivity].
      + intros ->. cbn in EFl. congruence.
      + assert (BC : Forall bytes_ok chunks) by (apply bytes_ok_flat; now rewrite EFl). rewrite Forall_forall in *. intros c HI.
        split; [auto|]. destruct (FC c HI) as (_ & L & _). assert (X := NC c HI). lia.
    - assert (X := decode_stored chunks []). rewrite EFl in X. exact X. }
  split; [exact G2|]. split.
  - intros e e'. rewrite CAT. apply gzip_of_parts with (header := header); [|exact G2].
    destruct (C48_lemma content HC) as (cs & EC' & EFl & _). assert (cs = chunks) as -> by (unfold chunks_of in EC; congruence).
    assert (BL : forall v, bytes_ok (le32_bytes v)) by (intro v; unfold le32_bytes; repeat (constructor; [unfold is_byte; lia|]); constructor).
    apply Forall_app. split; [exact HH|]. apply Forall_app. split; [apply chunks_bytes_ok, bytes_ok_flat; now rewrite EFl|]. apply Forall_app. split; apply BL.
  - intros other e HO GO. now apply zeroed.
Qed.

(** A content that [zero] loses. *)
Lemma C78_lemma_refuted : exists header content file, bytes_ok file /\ gzip_of header content file /\ content <> []
  /\ forall inflate e, decompressor_right inflate ->
       exists zeroed, zero_run inflate (mkSource file e) new_sink = (Ok tt, mkSink zeroed None)
         /\ forall e', cat_run (mkSource zeroed e') new_sink = (Ok tt, mkSink [] None).
Proof.
  set (h := [31; 139; 8; 0; 0; 0; 0; 0; 0; 3]).
  assert (GH : gzip_header h) by (exists 0, [0; 0; 0; 0; 0; 3], [], [], [], []; repeat split).
  assert (BH : bytes_ok h) by (repeat constructor).
  set (a := firstn (N.to_nat 32768) stubborn). set (b := skipn (N.to_nat 32768) stubborn).
  assert (AB : a ++ b = stubborn) by apply firstn_skipn.
  assert (LA : List.length a = N.to_nat 32768) by (unfold a; rewrite firstn_length, stubborn_length; lia).
  assert (LB : List.length b = N.to_nat 32768) by (unfold b; rewrite skipn_length, stubborn_length; lia).
  assert (BS := stubborn_bytes). assert (BAB : bytes_ok a /\ bytes_ok b) by (rewrite <- AB in BS; apply Forall_app in BS; exact BS). destruct BAB as [BA BB].
  assert (SB := stream_of_chunks [a; b] ltac:(discriminate) ltac:(repeat (constructor; [split; [assumption|lia]|]); constructor) 0%nat eq_refl).
  assert (DE := decode_stored [a; b] []). cbn [flat_map app] in DE. rewrite app_nil_r, AB in DE.
  assert (BC : bytes_ok (chunks_bytes [a; b])) by (apply chunks_bytes_ok; repeat (constructor; [assumption|]); constructor).
  assert (G : gzip_of h stubborn (h ++ chunks_bytes [a; b])).
  { exists (chunks_bytes [a; b]), [], (map Uncompressed [a; b]). split; [now rewrite app_nil_r|]. split; [exact GH|]. split; [exact SB|exact DE]. }
  clear DE SB. set (file := h ++ chunks_bytes [a; b]) in *. clearbody a b.
  exists h, stubborn, file. assert (BF : bytes_ok file) by (apply Forall_app; split; assumption).
  split; [exact BF|]. split; [exact G|]. assert (NE : stubborn <> []) by discriminate. split; [exact NE|].
  intros inflate e DR. assert (CH : chunks_of stubborn [stubborn]).
  { unfold chunks_of. rewrite <- (map_length (@inl N errkind)). exact stubborn_chunk. }
  eexists. split; [apply (zeroed inflate h stubborn file [stubborn]); assumption|]. intro e'.
  assert (CB : chunks_bytes [stubborn] = [1; 0; 0; 255; 255] ++ stubborn).
  { cbn [chunks_bytes is_nil]. unfold chunk_bytes. rewrite stubborn_length, N2Nat.id. rewrite app_nil_r. reflexivity. }
  assert (BL : forall v, bytes_ok (le32_bytes v)) by (intro v; unfold le32_bytes; repeat (constructor; [unfold is_byte; lia|]); constructor).
  rewrite CB, <- app_assoc. assert (LE : forall v, List.length (le32_bytes v) = 4%nat) by reflexivity.
  set (tail := stubborn ++ _). assert (BT : bytes_ok tail) by (apply Forall_app; split; [exact BS|apply Forall_app; split; apply BL]).
  clearbody tail. apply C47_lemma; [apply Forall_app; split; [exact BH|]; apply Forall_app; split; [repeat constructor|exact BT]|].
  exists h, [1; 0; 0; 255; 255], tail, [Uncompressed []]. split; [reflexivity|]. split; [exact GH|]. split; [|reflexivity].
  assert (X := stream_of_chunks [[]] ltac:(discriminate) ltac:(constructor; [split; [constructor|reflexivity]|constructor]) 0%nat eq_refl). exact X.
Qed.

(** A last chunk of 65536 bytes is lost, and nothing else is. *)
Lemma chunks_bytes_full before c : N.of_nat (List.length c) = 65536 -> chunks_bytes (before ++ [c]) = chunks_bytes (before ++ [[]]) ++ c.
Proof.
  intro L. induction before as [|b bs IH].
  - cbn [app chunks_bytes is_nil]. unfold chunk_bytes. rewrite L. rewrite !app_nil_r. reflexivity.
  - cbn [app chunks_bytes]. rewrite IH, <- app_assoc. destruct bs; reflexivity.
Qed.
Lemma C78_lemma_last : forall inflate header content file before c e, decompressor_right inflate -> bytes_ok file ->
  gzip_of header content file -> chunks_of content (before ++ [c]) ->
  (forall x, In x before -> N.of_nat (List.length x) <> 65536) -> N.of_nat (List.length c) = 65536 ->
  exists zeroed, zero_run inflate (mkSource file e) new_sink = (Ok tt, mkSink zeroed None)
    /\ forall e', cat_run (mkSource zeroed e') new_sink = (Ok tt, mkSink (flat_map (fun x => x) before) None).
Proof.
  intros inflate header content file before c e DR HB G EC NC LC.
  destruct (gzip_of_parts _ _ _ HB G) as (HH & HC & CAT & body & BB & EF & GH & ED & EI).
  destruct (C48_lemma content HC) as (cs & EC' & EFl & FC & _). assert (cs = before ++ [c]) as -> by (unfold chunks_of in EC; congruence).
  assert (NE : content <> []). { intros ->. rewrite flat_map_app in EFl. apply app_eq_nil in EFl. destruct EFl as [_ X]. cbn [flat_map] in X. rewrite app_nil_r in X. subst c. discriminate LC. }
  eexists. split; [apply (zeroed inflate header content file (before ++ [c])); auto|]. intro e'.
  assert (BC : Forall bytes_ok (before ++ [c])) by (apply bytes_ok_flat; now rewrite EFl). apply Forall_app in BC. destruct BC as [BB1 BC]. apply Forall_inv in BC.
  rewrite chunks_bytes_full by exact LC. rewrite <- app_assoc.
  assert (BL : forall v, bytes_ok (le32_bytes v)) by (intro v; unfold le32_bytes; repeat (constructor; [unfold is_byte; lia|]); constructor).
  set (tail := c ++ _). assert (BT : bytes_ok tail) by (apply Forall_app; split; [exact BC|apply Forall_app; split; apply BL]). clearbody tail.
  assert (BE : Forall bytes_ok (before ++ [[]])) by (apply Forall_app; split; [exact BB1|repeat constructor]).
  apply C47_lemma; [apply Forall_app; split; [exact HH|]; apply Forall_app; split; [apply chunks_bytes_ok; exact BE|exact BT]|].
  exists header, (chunks_bytes (before ++ [[]])), tail, (map Uncompressed (before ++ [[]])). split; [reflexivity|]. split; [exact GH|]. split.
  - apply stream_of_chunks; [destruct before; discriminate| |reflexivity].
    apply Forall_app. split; [|repeat constructor; discriminate]. rewrite Forall_forall in *. intros x HI. split; [auto|].
    destruct (FC x ltac:(apply in_or_app; now left)) as (_ & L & _). assert (X := NC x HI). lia.
  - assert (X := decode_stored (before ++ [[]]) []). rewrite flat_map_app in X. cbn [flat_map app] in X. rewrite app_nil_r in X. exact X.
Qed.

(** A right decompressor: the parser's and the window's own decoding. *)
Definition own_inflate (s : source) : byte_iter :=
  match parse_all s with
  | (Ok blocks, _) => match lz_decode 32768 [] (flat_map block_codes blocks) with Some c => map inl c | None => [] end
  | _ => []
  end.
Lemma own_inflate_right : decompressor_right own_inflate.
Proof.
  intros stream tail e blocks content HB SB HE. unfold own_inflate.
  destruct (proj2 (parse_all_iff (stream ++ tail) e blocks tail HB)) as (it & EP & _); [eauto|]. rewrite EP. unfold encodes in HE. cbn [app] in HE. now rewrite HE.
Qed.

(** ** The bytes that [zero] writes, for any content *)
Lemma stored_blocks_eq chunks : chunks_bytes chunks = stored_blocks chunks.
Proof.
  induction chunks as [|c cs IH]; [reflexivity|]. cbn [chunks_bytes]. rewrite IH. destruct cs as [|c2 cs]; [cbn [is_nil stored_blocks]; now rewrite app_nil_r|reflexivity].
Qed.
Lemma C49_lemma_bytes : forall (inflate : source -> byte_iter) file e header body content chunks,
  discard_header (mkSource file e) = (Ok header, mkSource body e) ->
  inflate (mkSource body e) = map inl content -> bytes_ok content -> content <> [] -> chunks_of content chunks ->
  zero_run inflate (mkSource file e) new_sink
  = (Ok tt, mkSink (header ++ stored_blocks chunks ++ le32_bytes (crc32 content) ++ le32_bytes (N.of_nat (List.length content) mod 2 ^ 32)) None).
Proof.
  intros inflate file e header body content chunks ED EI HC NE EC.
  destruct (zero_run_ok inflate file e header body (map inl content) chunks new_sink ED EI) as (_ & EQ & EZ).
  - destruct content; [congruence|discriminate]. - apply Forall_map. exact HC. - now rewrite map_length.
  - apply map_inl_inj in EQ. rewrite <- EQ in EZ. rewrite <- stored_blocks_eq. exact EZ.
Qed.

Lemma zeros_then : chunks_of (repeat 0 (N.to_nat 8192) ++ [7; 8]) [repeat 0 (N.to_nat 8192); [7; 8]].
Proof.
  unfold chunks_of. rewrite app_length, repeat_length.
  rewrite take_all_S, zeros_chunk by (try discriminate; repeat constructor).
  assert (X : forall n, take_all (S (S n)) (map inl [7; 8]) = Ok [[7; 8]]).
  { intro n. rewrite take_all_S. assert (T : take_rsync (map inl [7; 8]) = (Ok [7; 8], [])) by (vm_compute; reflexivity). rewrite T. cbv beta iota.
    rewrite take_all_S. assert (T0 : take_rsync [] = (Ok [], [])) by (vm_compute; reflexivity). rewrite T0. reflexivity. }
  destruct (repeat 0 (N.to_nat 8192)) eqn:E; [discriminate|]. cbv beta iota.
  rewrite Nat.add_comm. cbn [List.length Nat.add]. rewrite X. reflexivity.
Qed.

(** A file whose last chunk has 65536 bytes. *)
Lemma zeros_stubborn z : z = repeat 0 (N.to_nat 8192) -> chunks_of (z ++ stubborn) [z; stubborn].
Proof.
  intro EZ. unfold chunks_of. rewrite app_length. assert (LZ : List.length z = N.to_nat 8192) by (subst z; apply repeat_length).
  rewrite take_all_S. assert (T : take_rsync (map inl (z ++ stubborn)) = (Ok z, map inl stubborn)).
  { subst z. rewrite zeros_chunk; [reflexivity|exact stubborn_bytes|discriminate]. }
  rewrite T. cbv beta iota. destruct z as [|z0 zs]; [discriminate LZ|]. cbv beta iota.
  destruct (take_all_spec (List.length (z0 :: zs) + List.length stubborn) stubborn stubborn_bytes ltac:(cbn [List.length]; lia)) as (cs & E & EF & CH).
  assert (CS : chunks_of stubborn [stubborn]) by (unfold chunks_of; rewrite <- (map_length (@inl N errkind)); exact stubborn_chunk).
  destruct (chunks_chunked _ _ stubborn_bytes CS) as [EF1 CH1]. assert (EU := chunked_unique cs [stubborn] CH CH1 ltac:(congruence)). rewrite E, EU. reflexivity.
Qed.
Lemma pieces_gzip header pieces : gzip_header header -> pieces <> [] -> Forall (fun c => bytes_ok c /\ N.of_nat (List.length c) < 65536) pieces ->
  gzip_of header (flat_map (fun c => c) pieces) (header ++ stored_blocks pieces).
Proof.
  intros GH NE SC. exists (stored_blocks pieces), [], (map Uncompressed pieces). split; [now rewrite app_nil_r|]. split; [exact GH|]. split.
  - rewrite <- stored_blocks_eq. apply stream_of_chunks; [exact NE|exact SC|reflexivity].
  - exact (decode_stored pieces []).
Qed.
