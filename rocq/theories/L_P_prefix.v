(** Proofs of C80: a prefix of a file gives a prefix of the results. *)
From Verif Require Import Base M_bit M_lib M_code_tree M_huffman M_circles M_gzip M_parse M_serialise M_rezippers M_dump Spec Clients Clients_file
  L_prefix L_P_parse L_P_gzip L_P_file L_P_rez.
From Coq Require Import ZArith ZifyBool ZifyNat ZifyN.
Ltac Zify.zify_post_hook ::= Z.div_mod_to_equations.
Local Open Scope N_scope.
Local Open Scope model_scope.

Lemma src_new e e' bytes more : src_rel e e' more (mkSource bytes e) (mkSource (bytes ++ more) e').
Proof. repeat split. Qed.

Lemma bytes_app_l a b : bytes_ok (a ++ b) -> bytes_ok a.
Proof. unfold bytes_ok. rewrite Forall_app. tauto. Qed.

Lemma calls_agree e e' more n : forall a b i, iter_rel e e' more a b -> Forall returns (fst (call_next n a)) ->
  (i < n)%nat -> (forall j, (j <= i)%nat -> nth_error (fst (call_next n a)) j <> Some (Err (EIo e))) ->
  nth_error (fst (call_next n a)) i = nth_error (fst (call_next n b)) i.
Proof.
  induction n as [|n IH]; intros a b i HR HF HI HN; [lia|]. cbn [call_next] in *.
  destruct (pre_next e e' more a b HR) as [E|[E|[E HP]]].
  - exfalso. apply (HN 0%nat); [lia|]. destruct (bi_next a) as [o a1], (call_next n a1) as [os a2]. cbn in *. now rewrite E.
  - exfalso. destruct (bi_next a) as [o a1], (call_next n a1) as [os a2]. cbn in E. subst o. cbn in HF. inversion HF as [|? ? X]. exact X.
  - destruct (bi_next a) as [o a1], (bi_next b) as [o' b1]. cbn [fst snd] in *. subst o'. specialize (IH a1 b1).
    destruct (call_next n a1) as [os a2], (call_next n b1) as [os' b2]. cbn [fst snd] in *. destruct i as [|i]; [reflexivity|]. cbn [nth_error]. apply IH; [assumption|now inversion HF|lia|].
    intros j Hj. apply (HN (S j)). lia.
Qed.

Lemma C80_lemma_blocks : forall bytes more e e' n i, bytes_ok bytes -> (i < n)%nat ->
  (forall j, (j <= i)%nat -> nth_error (fst (call_next n (parse_deflate (mkSource bytes e)))) j <> Some (Err (EIo e))) ->
  nth_error (fst (call_next n (parse_deflate (mkSource bytes e)))) i
  = nth_error (fst (call_next n (parse_deflate (mkSource (bytes ++ more) e')))) i.
Proof.
  intros bytes more e e' n i HB HI HN. eapply calls_agree; [apply iter_new, src_new|apply C16_lemma, HB|exact HI|exact HN].
Qed.

Lemma C80_lemma_header : forall bytes more e e' o tail, discard_header (mkSource bytes e) = (o, mkSource tail e) ->
  o = Err (EIo e) \/ discard_header (mkSource (bytes ++ more) e') = (o, mkSource (tail ++ more) e').
Proof.
  intros bytes more e e' o tail E. assert (T := C31_lemma_total bytes e). destruct (pre_header e e' more _ _ (src_new e e' bytes more)) as [X|[X|[X HP]]].
  - rewrite E in X. now left.
  - rewrite X in T. destruct T.
  - right. rewrite E in X, HP. cbn [fst snd] in X, HP. destruct (discard_header (mkSource (bytes ++ more) e')) as [o' [r k]]. cbn [fst snd] in *. destruct HP as (H1 & _ & H2). cbn in H1, H2. now subst.
Qed.

Lemma C22_lemma_error : forall used tail e blocks it cut e', bytes_ok (used ++ tail) ->
  parse_all (mkSource (used ++ tail) e) = (Ok blocks, it) ->
  br_into_inner (bi_inner it) = Ok (mkSource tail e) ->
  (cut < List.length used)%nat ->
  fst (parse_all (mkSource (firstn cut used) e')) = Err (EIo e').
Proof.
  intros used tail e blocks it cut e' HB E EI HC. destruct (C22_lemma used tail e blocks it cut e' HB E EI HC) as (er & ER).
  set (more := skipn cut used ++ tail). assert (EW : used ++ tail = firstn cut used ++ more) by (unfold more; rewrite app_assoc, firstn_skipn; reflexivity).
  unfold parse_all in *. rewrite EW in E. cbn [rest] in *.
  destruct (pre_drain e' e more (8 * List.length (firstn cut used) + 2) (8 * List.length (firstn cut used ++ more) + 2) ltac:(rewrite app_length; lia) _ _ (iter_new e' e more _ _ (src_new e' e (firstn cut used) more))) as [X|[X|[X _]]].
  - exact X.
  - rewrite ER in X. discriminate.
  - rewrite ER, E in X. discriminate.
Qed.

(** ** Commands *)
Lemma dump_prefix e e' more : forall f1 f2 id a b, (f1 <= f2)%nat -> iter_rel e e' more a b ->
  snd (dump_loop f1 id a) = Diverge
  \/ (exists l, fst (dump_loop f2 id b) = fst (dump_loop f1 id a) ++ l) /\ (snd (dump_loop f1 id a) = Err (EIo e) \/ dump_loop f2 id b = dump_loop f1 id a).
Proof.
  induction f1 as [|f1 IH]; intros f2 id a b F H; [now left|]. destruct f2 as [|f2]; [lia|]. cbn [dump_loop].
  destruct (pre_next e e' more a b H) as [E|[E|[E HP]]].
  - right. destruct (bi_next a) as [o a1]. cbn [fst] in E. subst o. cbn [fst snd]. split; [eexists; reflexivity|now left].
  - left. destruct (bi_next a) as [o a1]. cbn [fst] in E. subst o. reflexivity.
  - destruct (bi_next a) as [o a1], (bi_next b) as [o' b1]. cbn [fst snd] in *. subst o'.
    destruct o as [[blk|]| | |]; try (right; split; [exists []; reflexivity|now right]).
    destruct (IH f2 (S id) a1 b1 ltac:(lia) HP) as [D|[[l L] R]]; destruct (dump_loop f1 (S id) a1) as [m1 o1], (dump_loop f2 (S id) b1) as [m2 o2]; cbn [fst snd] in *.
    + now left.
    + right. split; [exists l; now rewrite L, <- app_assoc|]. destruct R as [R|R]; [now left|right]. now injection R as -> ->.
Qed.

Lemma C80_lemma_dump : forall file more e e', bytes_ok file ->
  (exists l, fst (dump_run (mkSource (file ++ more) e')) = fst (dump_run (mkSource file e)) ++ l)
  /\ (snd (dump_run (mkSource file e)) = Err (EIo e) \/ dump_run (mkSource (file ++ more) e') = dump_run (mkSource file e)).
Proof.
  intros file more e e' HB. assert (D : snd (dump_run (mkSource file e)) <> Diverge).
  { intro D. destruct (dump_run (mkSource file e)) as [l o] eqn:E. cbn [snd] in D. subst o. destruct (C57_lemma_failure file e l Diverge HB E ltac:(discriminate)) as (er & X & _). discriminate. }
  assert (T := C31_lemma_total file e). unfold dump_run in *. destruct (pre_header e e' more _ _ (src_new e e' file more)) as [X|[X|[X HP]]].
  - destruct (discard_header (mkSource file e)) as [o s]. cbn [fst] in X. subst o. cbn [fst snd]. split; [eexists; reflexivity|now left].
  - rewrite X in T. destruct T.
  - destruct (discard_header (mkSource file e)) as [o s], (discard_header (mkSource (file ++ more) e')) as [o' s']. cbn [fst snd] in *. subst o'.
    destruct o; try (split; [exists []; reflexivity|now right]).
    destruct (dump_prefix e e' more (8 * List.length (rest s) + 2) (8 * List.length (rest s') + 2) 0 _ _ ltac:(destruct HP as [HP _]; rewrite HP, app_length; lia) (iter_new e e' more _ _ HP)) as [Y|Y]; [now destruct D|exact Y].
Qed.

(** What has been written stays. *)
Definition keeps {A} (m : M (circ * sink) A) : Prop := forall st, exists l, written (snd (snd (m st))) = written (snd st) ++ l.
Lemma keeps_lift {A} (o : outcome A) : keeps (lift o).
Proof. intro st. exists []. cbn. now rewrite app_nil_r. Qed.
Lemma keeps_bind {A B} (m : M (circ * sink) A) (k : A -> M (circ * sink) B) : keeps m -> (forall a, keeps (k a)) -> keeps (bind m k).
Proof.
  intros H1 H2 st. unfold bind. destruct (H1 st) as [l L]. destruct (m st) as [[a| | |] st'] eqn:E; cbn [snd] in *; eauto.
  destruct (H2 a st') as [l' L']. exists (l ++ l'). now rewrite L', L, <- app_assoc.
Qed.
Lemma keeps_write bs s : exists l, written (snd (write_all bs s)) = written s ++ l.
Proof. unfold write_all. destruct (room s); [destruct (Nat.leb _ _)|]; cbn; eauto. Qed.
Lemma keeps_copy_loop n : forall from, keeps (cb_copy_loop n from).
Proof.
  induction n as [|n IH]; intros from [b s]; cbn [cb_copy_loop]; [exists []; cbn; now rewrite app_nil_r|]. destruct (get_idx (cb_data b) from) as [x| | |]; try (exists []; cbn; now rewrite app_nil_r).
  destruct (keeps_write [x] s) as [l L]. destruct (write_all [x] s) as [[u| | |] s']; cbn [snd] in *; eauto. destruct (cb_push b x) as [b'| | |]; cbn [snd]; eauto.
  destruct (IH ((from + 1) mod List.length (cb_data b))%nat (b', s')) as [l' L']. exists (l ++ l'). rewrite L'. cbn [snd]. now rewrite L, <- app_assoc.
Qed.
Lemma keeps_codes codes : keeps (decompressed_codes codes).
Proof.
  induction codes as [|[b|r] codes IH]; cbn [decompressed_codes]; [apply (keeps_lift (Ok tt))|apply keeps_bind; [|intros _; exact IH]..].
  - intros [d s]. cbn [fst snd]. destruct (cb_push d b); try (exists []; cbn; now rewrite app_nil_r). destruct (keeps_write [b] s) as [l L]. destruct (write_all [b] s) as [o s']. cbn in *. eauto.
  - intros [d s]. unfold cb_copy. cbn [fst]. destruct (_ && _); [|exists []; cbn; now rewrite app_nil_r]. apply keeps_bind; [apply keeps_lift|apply keeps_copy_loop].
Qed.
Lemma keeps_block b : keeps (decompressed_block b).
Proof.
  destruct b; cbn [decompressed_block]; try apply keeps_codes. intros [d s]. cbn [fst snd]. destruct (cb_extend d _) ; try (exists []; cbn; now rewrite app_nil_r).
  match goal with |- context [write_all ?x s] => destruct (keeps_write x s) as [l L]; destruct (write_all x s) as [o s'] end. cbn in *. eauto.
Qed.
Lemma keeps_cat fuel : forall it, keeps (cat_loop fuel it).
Proof.
  induction fuel as [|fuel IH]; intro it; cbn [cat_loop]; [apply keeps_lift|]. destruct (bi_next it) as [[[b|]| | |] it']; try apply (keeps_lift _).
  apply keeps_bind; [apply keeps_block|intros _; apply IH].
Qed.

Lemma cat_prefix e e' more : forall f1 f2 a b st, (f1 <= f2)%nat -> iter_rel e e' more a b ->
  fst (cat_loop f1 a st) = Diverge
  \/ (exists l, written (snd (snd (cat_loop f2 b st))) = written (snd (snd (cat_loop f1 a st))) ++ l)
     /\ (fst (cat_loop f1 a st) = Err (EIo e) \/ cat_loop f2 b st = cat_loop f1 a st).
Proof.
  induction f1 as [|f1 IH]; intros f2 a b st F H; [now left|]. destruct f2 as [|f2]; [lia|]. cbn [cat_loop].
  destruct (pre_next e e' more a b H) as [E|[E|[E HP]]].
  - right. split; [|left; destruct (bi_next a) as [o a1]; cbn [fst] in E; now subst o]. destruct (keeps_cat (S f2) b st) as [l L]. exists l. cbn [cat_loop] in L. rewrite L.
    destruct (bi_next a) as [o a1]. cbn [fst] in E. subst o. reflexivity.
  - left. destruct (bi_next a) as [o a1]. cbn [fst] in E. subst o. reflexivity.
  - destruct (bi_next a) as [o a1], (bi_next b) as [o' b1]. cbn [fst snd] in *. subst o'.
    destruct o as [[blk|]| | |]; try (right; split; [exists []; cbn; now rewrite app_nil_r|now right]).
    unfold bind. destruct (decompressed_block blk st) as [[[]| | |] st']; try (right; split; [exists []; cbn; now rewrite app_nil_r|now right]). apply IH; [lia|exact HP].
Qed.

Lemma C80_lemma_cat : forall file more e e' room, bytes_ok file ->
  let '(o, out) := cat_run (mkSource file e) (sink_with room) in
  let '(o', out') := cat_run (mkSource (file ++ more) e') (sink_with room) in
  (exists l, written out' = written out ++ l) /\ (o = Err (EIo e) \/ o' = o /\ out' = out).
Proof.
  intros file more e e' room HB. destruct (cat_run (mkSource file e) (sink_with room)) as [o out] eqn:E1. destruct (cat_run (mkSource (file ++ more) e') (sink_with room)) as [o' out'] eqn:E2.
  assert (D : o <> Diverge). { intros ->. destruct (C47_lemma_failure file e room _ out HB E1 ltac:(discriminate)) as (er & X & _). discriminate. }
  assert (T := C31_lemma_total file e). unfold cat_run in *. destruct (pre_header e e' more _ _ (src_new e e' file more)) as [X|[X|[X HP]]].
  - destruct (discard_header (mkSource file e)) as [oh s]. cbn [fst] in X. subst oh. injection E1 as <- <-. split; [|now left].
    destruct (discard_header (mkSource (file ++ more) e')) as [[h| | |] s']; try (injection E2 as <- <-; exists []; now rewrite app_nil_r).
    destruct cb_new as [d| | |]; try (injection E2 as <- <-; exists []; now rewrite app_nil_r).
    destruct (keeps_cat (8 * List.length (rest s') + 2) (parse_deflate s') (d, sink_with room)) as [l L]. destruct (cat_loop _ _ _) as [o2 [c2 out2]]. injection E2 as <- <-. exists l. exact L.
  - rewrite X in T. destruct T.
  - destruct (discard_header (mkSource file e)) as [oh s], (discard_header (mkSource (file ++ more) e')) as [oh' s']. cbn [fst snd] in *. subst oh'.
    destruct oh; try (injection E1 as <- <-; injection E2 as <- <-; split; [exists []; now rewrite app_nil_r|now right]).
    destruct cb_new as [d| | |]; try (injection E1 as <- <-; injection E2 as <- <-; split; [exists []; now rewrite app_nil_r|now right]).
    destruct (cat_prefix e e' more (8 * List.length (rest s) + 2) (8 * List.length (rest s') + 2) (parse_deflate s) (parse_deflate s') (d, sink_with room)
      ltac:(destruct HP as [HP _]; rewrite HP, app_length; lia) (iter_new e e' more _ _ HP)) as [Y|[[l Y] Z]];
    destruct (cat_loop (8 * List.length (rest s) + 2) _ _) as [o1 [c1 out1]], (cat_loop (8 * List.length (rest s') + 2) _ _) as [o2 [c2 out2]];
    injection E1 as <- <-; injection E2 as <- <-; cbn [fst snd] in *.
    + now destruct D.
    + split; [eauto|]. destruct Z as [Z|Z]; [now left|right]. now injection Z as -> -> ->.
Qed.
