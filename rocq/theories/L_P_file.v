(** Proofs of C56 and C57. *)
From Verif Require Import Base M_bit M_lib M_circles M_gzip M_parse M_serialise M_rezippers M_dump Spec Clients Clients_file
  L_bits L_parse L_ser L_P_parse L_P_gzip L_P_rez.
From Coq Require Import ZArith ZifyBool ZifyNat ZifyN.
Ltac Zify.zify_post_hook ::= Z.div_mod_to_equations.
Local Open Scope N_scope.
Local Open Scope model_scope.

(** ** Recreating a file *)
Lemma C56_lemma : forall file, bytes_ok file ->
  (recreate_file file = Ok file
   <-> exists header stream trailer blocks, file = header ++ stream ++ trailer
        /\ gzip_header header /\ canonical_stream 0 blocks (bits_of_bytes stream)).
Proof.
  intros file HB. unfold recreate_file. split.
  - destruct (discard_header _) as [[h| | |] s] eqn:EH; try discriminate.
    destruct (C30_lemma _ _ _ _ EH) as (body & -> & EF & _). apply C31_lemma in EH; [|assumption]. destruct EH as [_ GH].
    assert (HBB : bytes_ok body) by (rewrite EF in HB; apply Forall_app in HB; apply HB).
    destruct (parse_all _) as [[blocks| | |] it] eqn:EP; cbn [obind]; try discriminate.
    destruct (parse_all_wf _ _ _ _ HBB EP) as (_ & used & tail & EB & SB & EI). rewrite EI.
    destruct (compress_all blocks) as [out| | |] eqn:EC; cbn [obind]; try discriminate. cbn [rest]. intros [= E].
    rewrite EF, EB in E. apply app_inv_head, app_inv_tail in E. subst out.
    exists h, used, tail, blocks. split; [now rewrite EF, EB|]. split; [exact GH|].
    rewrite EB in EP, HBB. apply (proj1 (C19_exact_lemma used tail _ blocks it HBB EP EI)). exact EC.
  - intros (h & used & tail & blocks & EF & GH & CS).
    assert (EH : discard_header (mkSource file UnexpectedEof) = (Ok h, mkSource (used ++ tail) UnexpectedEof)) by (apply C31_lemma; auto).
    rewrite EH. assert (HBB : bytes_ok (used ++ tail)) by (rewrite EF in HB; apply Forall_app in HB; apply HB).
    destruct (proj2 (parse_all_iff (used ++ tail) UnexpectedEof blocks tail HBB)) as (it & EP & EI).
    { exists used. split; [reflexivity|]. now apply canonical_stream_stream. }
    rewrite EP. cbn [obind]. rewrite (proj2 (C19_exact_lemma used tail _ blocks it HBB EP EI) CS). cbn [obind]. rewrite EI. cbn [obind rest]. now rewrite EF.
Qed.

(** In any case the header and what follows the stream are copied exactly, and nothing else is added. *)
Lemma C56_lemma_frame : forall file out, bytes_ok file -> recreate_file file = Ok out ->
  exists header stream trailer blocks stream', file = header ++ stream ++ trailer
    /\ gzip_header header /\ stream_bits 0 blocks (bits_of_bytes stream)
    /\ compress_all blocks = Ok stream' /\ out = header ++ stream' ++ trailer.
Proof.
  intros file out HB. unfold recreate_file. destruct (discard_header _) as [[h| | |] s] eqn:EH; try discriminate.
  destruct (C30_lemma _ _ _ _ EH) as (body & -> & EF & _). apply C31_lemma in EH; [|assumption]. destruct EH as [_ GH].
  assert (HBB : bytes_ok body) by (rewrite EF in HB; apply Forall_app in HB; apply HB).
  destruct (parse_all _) as [[blocks| | |] it] eqn:EP; cbn [obind]; try discriminate.
  destruct (parse_all_wf _ _ _ _ HBB EP) as (_ & used & tail & EB & SB & EI). rewrite EI.
  destruct (compress_all blocks) as [out'| | |] eqn:EC; cbn [obind]; try discriminate. cbn [rest]. intros [= <-].
  exists h, used, tail, blocks, out'. split; [now rewrite EF, EB|]. auto.
Qed.

(** A stored block of five bytes. *)
Lemma C56_lemma_refuted : exists file header stream trailer blocks, bytes_ok file
  /\ file = header ++ stream ++ trailer /\ gzip_header header /\ stream_bits 0 blocks (bits_of_bytes stream)
  /\ exists out, recreate_file file = Ok out /\ out <> file.
Proof.
  set (h := [31; 139; 8; 0; 0; 0; 0; 0; 0; 3]). set (s := [1; 5; 0; 250; 255; 104; 101; 108; 108; 111]). set (t := [1; 2; 3; 4; 5; 6; 7; 8]).
  assert (B : bytes_ok (h ++ s ++ t)) by (repeat constructor).
  assert (P : exists it, parse_all (mkSource (s ++ t) UnexpectedEof) = (Ok [Uncompressed [104; 101; 108; 108; 111]], it)
                         /\ br_into_inner (bi_inner it) = Ok (mkSource t UnexpectedEof)).
  { eexists. split; vm_compute; reflexivity. }
  apply parse_all_iff in P; [|repeat constructor]. destruct P as (used & EU & SB). apply app_inv_tail in EU. subst used.
  exists (h ++ s ++ t), h, s, t, [Uncompressed [104; 101; 108; 108; 111]]. split; [exact B|]. split; [reflexivity|]. split.
  - assert (X := proj1 (C31_lemma h UnexpectedEof h [] ltac:(repeat constructor))). apply X. vm_compute. reflexivity.
  - split; [exact SB|]. eexists. split; [vm_compute; reflexivity|]. discriminate.
Qed.

(** ** Dumping a file *)
Lemma dump_block_line id b : dump_block id b = [DBlock id]
  ++ match b with
     | Uncompressed data => [DStored (List.length data)]
     | FixedHuffman codes => DFixed :: map code_line codes
     | DynamicHuffman trees codes => DDynamic trees :: map code_line codes
     end.
Proof. destruct b; reflexivity. Qed.

Lemma dump_follows fuel : forall id it,
  match bi_drain fuel it with
  | (Ok blocks, _) => dump_loop fuel id it = (listing id blocks, Ok tt)
  | (Err e, _) => exists blocks, fst (call_next (S (List.length blocks)) it) = map some_block blocks ++ [Err e]
       /\ dump_loop fuel id it = (listing id blocks, Err e)
  | _ => True
  end.
Proof.
  induction fuel as [|fuel IH]; intros id it; cbn [bi_drain dump_loop]; [exact I|]. unfold bind at 1.
  destruct (bi_next it) as [[[b|]|e|m|] it'] eqn:E; try exact I.
  - unfold bind at 1. specialize (IH (S id) it'). destruct (bi_drain fuel it') as [[blocks|e|m|] it2]; try exact I; cbn [ret].
    + rewrite IH, dump_block_line. cbn [listing]. now rewrite <- app_assoc.
    + destruct IH as (blocks & IH1 & IH2). exists (b :: blocks). split.
      * cbn [List.length call_next map app]. rewrite E. cbn [call_next] in IH1. destruct (bi_next it') as [o3 i3]. destruct (call_next (List.length blocks) i3) as [os i4].
        cbn [fst] in *. rewrite IH1. reflexivity.
      * rewrite IH2, dump_block_line. cbn [listing]. now rewrite <- app_assoc.
  - reflexivity.
  - exists []. cbn [List.length call_next map app listing]. rewrite E. auto.
Qed.

Lemma C57_lemma : forall file e lines, bytes_ok file ->
  (dump_run (mkSource file e) = (lines, Ok tt)
   <-> exists header stream trailer blocks, file = header ++ stream ++ trailer
        /\ gzip_header header /\ stream_bits 0 blocks (bits_of_bytes stream) /\ lines = listing 0 blocks).
Proof.
  intros file e lines HB. unfold dump_run. split.
  - destruct (discard_header _) as [[h| | |] s] eqn:EH; try discriminate.
    destruct (C30_lemma _ _ _ _ EH) as (body & -> & EF & _). apply C31_lemma in EH; [|assumption]. destruct EH as [_ GH]. cbn [rest].
    assert (HBB : bytes_ok body) by (rewrite EF in HB; apply Forall_app in HB; apply HB).
    assert (DF := dump_follows (8 * List.length body + 2) 0 (parse_deflate (mkSource body e))).
    assert (T := parse_all_total body e HBB). assert (PW := parse_all_wf body e).
    unfold parse_all in T, PW. cbn [rest] in T, PW. destruct (bi_drain _ _) as [[blocks|er|m|] it]; cbn [fst returns] in T; try tauto.
    + rewrite DF. intros [= <-]. destruct (PW _ _ HBB eq_refl) as (_ & used & tail & EB & SB & _).
      exists h, used, tail, blocks. split; [now rewrite EF, EB|]. auto.
    + destruct DF as (blocks & _ & ->). discriminate.
  - intros (h & used & tail & blocks & EF & GH & SB & ->).
    assert (EH : discard_header (mkSource file e) = (Ok h, mkSource (used ++ tail) e)) by (apply C31_lemma; auto).
    rewrite EH. cbn [rest]. assert (HBB : bytes_ok (used ++ tail)) by (rewrite EF in HB; apply Forall_app in HB; apply HB).
    destruct (proj2 (parse_all_iff (used ++ tail) e blocks tail HBB)) as (it & EP & _); [eauto|].
    assert (DF := dump_follows (8 * List.length (used ++ tail) + 2) 0 (parse_deflate (mkSource (used ++ tail) e))).
    unfold parse_all in EP. cbn [rest] in EP. rewrite EP in DF. exact DF.
Qed.

Lemma C57_lemma_failure : forall file e lines o, bytes_ok file ->
  dump_run (mkSource file e) = (lines, o) -> o <> Ok tt ->
  exists er, o = Err er
  /\ ((exists s, discard_header (mkSource file e) = (Err er, s)) /\ lines = []
      \/ exists header body blocks, discard_header (mkSource file e) = (Ok header, mkSource body e)
          /\ fst (call_next (S (List.length blocks)) (parse_deflate (mkSource body e))) = map (fun b => Ok (Some b)) blocks ++ [Err er]
          /\ lines = listing 0 blocks).
Proof.
  intros file e lines o HB ED HO. unfold dump_run in ED. assert (TH := C31_lemma_total file e).
  destruct (discard_header (mkSource file e)) as [[h|er|m|] s] eqn:EH; cbn [fst returns] in TH; try tauto.
  - destruct (C30_lemma _ _ _ _ EH) as (body & -> & EF & _). cbn [rest] in ED.
    assert (HBB : bytes_ok body) by (rewrite EF in HB; apply Forall_app in HB; apply HB).
    assert (DF := dump_follows (8 * List.length body + 2) 0 (parse_deflate (mkSource body e))).
    assert (T := parse_all_total body e HBB). unfold parse_all in T. cbn [rest] in T.
    destruct (bi_drain _ _) as [[blocks|er|m|] it]; cbn [fst returns] in T; try tauto.
    + rewrite DF in ED. injection ED as _ <-. tauto.
    + destruct DF as (blocks & D1 & D2). rewrite D2 in ED. injection ED as <- <-. exists er. split; [reflexivity|]. right.
      exists h, body, blocks. split; [reflexivity|]. split; [exact D1|reflexivity].
  - injection ED as <- <-. exists er. split; [reflexivity|]. left. split; [eauto|reflexivity].
Qed.

(** The listing shows everything but stored contents. *)
Lemma code_line_inj a b : code_line a = code_line b -> a = b.
Proof.
  destruct a as [x|[d r]], b as [y|[d' r']]; cbn [code_line r_dist r_run_minus_3]; try discriminate; [now intros [= ->]|].
  unfold ref_len. cbn [r_run_minus_3]. intros [= -> E]. f_equal. f_equal. lia.
Qed.

Definition is_code_line (l : dump_line) : Prop := match l with DLit _ | DBackref _ _ => True | _ => False end.
Lemma code_lines_split a : forall b x y, (forall l, hd_error x = Some l -> ~ is_code_line l) -> (forall l, hd_error y = Some l -> ~ is_code_line l) ->
  map code_line a ++ x = map code_line b ++ y -> a = b /\ x = y.
Proof.
  induction a as [|c a IH]; intros [|d b] x y HX HY E; cbn [map app] in E.
  - auto.
  - exfalso. apply (HX (code_line d)); [now rewrite E|]. destruct d; exact I.
  - exfalso. apply (HY (code_line c)); [now rewrite <- E|]. destruct c; exact I.
  - injection E as E1 E2. apply code_line_inj in E1. destruct (IH b x y HX HY E2) as [-> ->]. subst d. auto.
Qed.
Lemma listing_head id bs l : hd_error (listing id bs) = Some l -> ~ is_code_line l.
Proof. destruct bs as [|b bs]; cbn [listing hd_error app]; [discriminate|]. intros [= <-]. exact (fun f => f). Qed.

Lemma C57_lemma_complete : forall a b, listing 0 a = listing 0 b -> map outline_of a = map outline_of b.
Proof.
  intros a b. generalize 0%nat. revert b. induction a as [|x a IH]; intros [|y b] n E; cbn [listing] in E; try (destruct x; discriminate); try (destruct y; discriminate); [reflexivity|].
  cbn [map]. destruct x as [d|cs|t cs], y as [d'|cs'|t' cs']; cbn [app] in E; try discriminate; cbn [outline_of].
  - injection E as EL E. rewrite EL. f_equal. now apply (IH b (S n)).
  - injection E as E. destruct (code_lines_split _ _ _ _ (listing_head (S n) a) (listing_head (S n) b) E) as [-> E']. f_equal. now apply (IH b (S n)).
  - injection E as -> E. destruct (code_lines_split _ _ _ _ (listing_head (S n) a) (listing_head (S n) b) E) as [-> E']. f_equal. now apply (IH b (S n)).
Qed.
