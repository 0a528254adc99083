(** Proofs of C75 and C76. *)
From Verif Require Import Base M_bit M_lib M_code_tree M_huffman M_circles M_gzip M_parse M_serialise M_trace M_filter M_rezippers M_debug M_dump M_text M_io M_main
  Clients_io Clients_main L_bits L_io L_P_io L_P_text.
From Coq Require Import ZArith ZifyBool ZifyNat ZifyN.
Ltac Zify.zify_post_hook ::= Z.div_mod_to_equations.
Local Open Scope N_scope.
Local Open Scope model_scope.

(** ** Buffered readers *)
Definition buffered (b : bufreader) (s : source) : Prop := s = bf_source b /\ rd_ok (rd_events (bf_inner b)).

Lemma bf_source_eq b : bf_source b = mkSource (bf_buf b ++ rd_bytes (rd_events (bf_inner b))) (rd_final (bf_inner b)).
Proof. reflexivity. Qed.

Lemma rd_ok_skip n bs ev : (n < List.length bs)%nat -> rd_ok ev -> rd_ok (RBytes (skipn n bs) :: ev).
Proof.
  intros H OK [X|X]; [|now apply OK]. injection X as X. assert (L : List.length (skipn n bs) = 0%nat) by now rewrite X. rewrite skipn_length in L. lia.
Qed.

(** One call of [read]: bytes from the front, or an interruption, or the end. *)
Lemma bf_read_spec n b : n <> 0%nat -> rd_ok (rd_events (bf_inner b)) ->
  let '(o, b') := bf_read n b in
  rd_ok (rd_events (bf_inner b')) /\
  ((exists got, o = Ok got /\ got <> [] /\ (List.length got <= n)%nat /\ rest (bf_source b) = got ++ rest (bf_source b')
      /\ at_end (bf_source b') = at_end (bf_source b) /\ (List.length (rd_events (bf_inner b')) <= List.length (rd_events (bf_inner b)))%nat)
   \/ (o = Err EInterrupted /\ bf_source b' = bf_source b /\ (List.length (rd_events (bf_inner b')) < List.length (rd_events (bf_inner b)))%nat)
   \/ (rest (bf_source b) = [] /\ bf_source b' = bf_source b /\ o = match at_end (bf_source b) with UnexpectedEof => Ok [] | OtherIo => Err (EIo OtherIo) end)).
Proof.
  intros HN OK. unfold bf_read. destruct b as [buf [ev fin]]. cbn [bf_buf bf_inner rd_events] in *. destruct buf as [|b0 buf].
  - assert (HB : BUF_READER <> 0%nat) by (unfold BUF_READER; lia). destruct (Nat.leb BUF_READER n).
    + assert (RS := rd_read_spec n (mkRd ev fin) HN OK). cbn [rd_events rd_final] in RS. destruct ev as [|[bs|] ev].
      * destruct RS as [RS RE]. destruct (rd_read n _) as [o r]. cbn [fst snd] in *. subst r. split; [exact OK|]. right; right. rewrite bf_source_eq. cbn. repeat split. destruct fin; exact RS.
      * apply rd_ok_cons in OK. destruct OK as [NB OK]. destruct (Nat.leb_spec (List.length bs) n).
        -- rewrite RS. split; [exact OK|]. left. exists bs. rewrite !bf_source_eq. cbn. repeat split; [congruence|lia..].
        -- destruct RS as [-> OK']. split; [exact OK'|]. left. exists (firstn n bs). rewrite !bf_source_eq. cbn. rewrite firstn_length, app_assoc, firstn_skipn. repeat split; [|lia..].
           intro X. assert (L : List.length (firstn n bs) = 0%nat) by now rewrite X. rewrite firstn_length in L. lia.
      * apply rd_ok_cons in OK. destruct OK as [_ OK]. rewrite RS. split; [exact OK|]. right; left. rewrite !bf_source_eq. cbn. repeat split; lia.
    + assert (RS := rd_read_spec BUF_READER (mkRd ev fin) HB OK). cbn [rd_events rd_final] in RS. destruct ev as [|[bs|] ev].
      * destruct RS as [RS RE]. destruct (rd_read BUF_READER _) as [o r]. cbn [fst snd] in *. subst r. rewrite bf_source_eq. cbn [bf_buf bf_inner rd_events rd_final rd_bytes flat_map app rest at_end].
        destruct fin; subst o; rewrite ?firstn_nil, ?skipn_nil; (split; [exact OK|]); right; right; repeat split.
      * apply rd_ok_cons in OK. destruct OK as [NB OK]. assert (NE : bs <> []) by congruence.
        assert (FN : forall l : list N, l <> [] -> firstn n l <> []) by (intros [|? l] H X; [now apply H|]; destruct n; [lia|discriminate]).
        destruct (Nat.leb_spec (List.length bs) BUF_READER).
        -- rewrite RS. split; [exact OK|]. left. exists (firstn n bs). rewrite !bf_source_eq. cbn [bf_buf bf_inner rd_events rd_final rd_bytes flat_map app rest at_end List.length].
           rewrite firstn_length, app_assoc, firstn_skipn. repeat split; [now apply FN|lia..].
        -- destruct RS as [-> OK']. split; [exact OK'|]. left. exists (firstn n (firstn BUF_READER bs)). rewrite !bf_source_eq.
           cbn [bf_buf bf_inner rd_events rd_final rd_bytes flat_map app rest at_end List.length].
           rewrite firstn_length, !app_assoc, firstn_skipn, firstn_skipn. repeat split; [|lia..]. apply FN. intro X.
           assert (L : List.length (firstn BUF_READER bs) = 0%nat) by now rewrite X. rewrite firstn_length in L. lia.
      * apply rd_ok_cons in OK. destruct OK as [_ OK]. rewrite RS. split; [exact OK|]. right; left. rewrite !bf_source_eq. cbn [bf_buf bf_inner rd_events rd_final rd_bytes flat_map app List.length]. repeat split; lia.
  - split; [exact OK|]. left. exists (firstn n (b0 :: buf)). rewrite !bf_source_eq. cbn [bf_buf bf_inner rd_events rd_final rest at_end]. rewrite firstn_length, app_assoc, firstn_skipn.
    repeat split; [|lia..]. destruct n; [lia|discriminate].
Qed.

Lemma bf_loop_sim : forall fuel n b, rd_ok (rd_events (bf_inner b)) -> (n + List.length (rd_events (bf_inner b)) < fuel)%nat ->
  fst (read_exact_loop bf_read fuel n b) = fst (read_exact n (bf_source b)) /\ buffered (snd (read_exact_loop bf_read fuel n b)) (snd (read_exact n (bf_source b))).
Proof.
  induction fuel as [|fuel IH]; intros n b OK HF; [lia|]. destruct n as [|n]; [rewrite exact_zero; now split|].
  cbn [read_exact_loop]. assert (RS := bf_read_spec (S n) b ltac:(lia) OK). destruct (bf_read (S n) b) as [o b']. destruct RS as [OK' [(got & -> & NG & LG & EG & EE & LE)|[(-> & ES & LE)|(ER & ES & ->)]]].
  - destruct got as [|g0 got]; [congruence|]. set (chunk := g0 :: got) in *. assert (LC : (1 <= List.length chunk)%nat) by (cbn; lia). destruct (Nat.leb_spec (List.length chunk) (S n)); [|lia].
    assert (X : bf_source b = mkSource (chunk ++ rest (bf_source b')) (at_end (bf_source b'))) by (rewrite <- EG, EE; now destruct (bf_source b)).
    rewrite X, exact_more by lia.
    change (match chunk with [] => (Err (EIo UnexpectedEof), b') | _ :: _ => (bind (read_exact_loop bf_read fuel (S n - List.length chunk)) (fun more => ret (chunk ++ more))) b' end)
      with (bind (read_exact_loop bf_read fuel (S n - List.length chunk)) (fun more => ret (chunk ++ more)) b').
    apply sim_pair. replace (mkSource (rest (bf_source b')) (at_end (bf_source b'))) with (bf_source b') by now destruct (bf_source b'). apply IH; [exact OK'|lia].
  - rewrite <- ES. apply IH; [exact OK'|lia].
  - remember (at_end (bf_source b)) as e eqn:EE. assert (X : bf_source b = mkSource [] e) by (rewrite EE, <- ER; now destruct (bf_source b)).
    rewrite X in *. clear EE. unfold read_exact. cbn [rest at_end List.length Nat.leb fst snd]. destruct e; cbn [fst snd]; (split; [reflexivity|]); (split; [now rewrite ES|exact OK']).
Qed.

Lemma bf_exact_sim n : sim buffered (bf_exact n) (read_exact n).
Proof.
  intros b s [-> OK]. unfold bf_exact. destruct (Nat.leb_spec n (List.length (bf_buf b))); [|apply bf_loop_sim; [exact OK|lia]].
  rewrite bf_source_eq. unfold read_exact. cbn [rest at_end]. rewrite app_length. destruct (Nat.leb_spec n (List.length (bf_buf b) + List.length (rd_bytes (rd_events (bf_inner b))))); [|lia].
  cbn [fst snd]. rewrite firstn_app, skipn_app. replace (n - List.length (bf_buf b))%nat with 0%nat by lia. cbn [firstn skipn]. rewrite app_nil_r. split; [reflexivity|]. split; [reflexivity|exact OK].
Qed.
Lemma bf_left_sim b s : buffered b s -> bf_left b = List.length (rest s).
Proof.
  intros [-> OK]. unfold bf_left. rewrite bf_source_eq. cbn [rest]. rewrite app_length. f_equal. exact (rd_left_sim _ _ (conj eq_refl OK)).
Qed.

(** ** The same result and related states, or a failed output *)
Definition bad {A} (p : bool) : outcome A := if p then Panic "failed printing to stdout" else Err (EIo OtherIo).
Definition simf {S1 S2 A} (p : bool) (P F : S1 -> S2 -> Prop) (m1 : M S1 A) (m2 : M S2 A) : Prop :=
  (forall s1 s2, P s1 s2 -> (fst (m1 s1) = fst (m2 s2) /\ P (snd (m1 s1)) (snd (m2 s2))) \/ (fst (m1 s1) = bad p /\ F (snd (m1 s1)) (snd (m2 s2))))
  /\ (forall s1 s2, F s1 s2 -> F s1 (snd (m2 s2))).

Section Simf.
  Context {S1 S2 : Type} (p : bool) (P F : S1 -> S2 -> Prop).
  Lemma simf_ret {A} (a : A) : simf p P F (ret a) (ret a).
  Proof. split; [|auto]. intros s1 s2 H. left. now split. Qed.
  Lemma simf_lift {A} (o : outcome A) : simf p P F (lift o) (lift o).
  Proof. split; [|auto]. intros s1 s2 H. left. now split. Qed.
  Lemma simf_bind {A B} (m1 : M S1 A) m2 (k1 : A -> M S1 B) k2 :
    simf p P F m1 m2 -> (forall a, simf p P F (k1 a) (k2 a)) -> simf p P F (bind m1 k1) (bind m2 k2).
  Proof.
    intros [H1 M1] H2. split.
    - intros s1 s2 H. unfold bind. destruct (H1 s1 s2 H) as [[E HP]|[E HF]].
      + destruct (m1 s1) as [o1 t1], (m2 s2) as [o2 t2]. cbn [fst snd] in *. subst o2. destruct o1; [exact (proj1 (H2 a) t1 t2 HP)|left; split; [reflexivity|exact HP]..].
      + right. destruct (m1 s1) as [o1 t1], (m2 s2) as [o2 t2]. cbn [fst snd] in *. subst o1. unfold bad. split; [destruct p; reflexivity|].
        assert (X : F t1 (snd (match o2 with Ok a => k2 a t2 | Err e => (Err e, t2) | Panic m => (Panic m, t2) | Diverge => (Diverge, t2) end))).
        { destruct o2; [exact (proj2 (H2 a) t1 t2 HF)|exact HF..]. }
        destruct p; exact X.
    - intros s1 s2 H. unfold bind. apply M1 in H. destruct (m2 s2) as [o2 t2]. cbn [snd] in H. destruct o2; [exact (proj2 (H2 a) s1 t2 H)|exact H..].
  Qed.
End Simf.

(** ** The line buffer *)
Definition total (d : writer) : option nat :=
  match wr_room (wr_events d) (wr_fails d) with Some r => Some (r + List.length (wr_written d))%nat | None => None end.

(** After writing [bs] to a device: everything accepted, or the device full. *)
Definition accepted_all (d : writer) (bs : list N) (d' : writer) : Prop :=
  wr_ok (wr_events d') /\ total d' = total d /\ wr_written d' = wr_written d ++ bs.
Definition now_full (d : writer) (bs : list N) (d' : writer) : Prop :=
  wr_ok (wr_events d') /\ total d' = total d /\ wr_room (wr_events d') (wr_fails d') = Some 0%nat
  /\ exists more, more <> [] /\ wr_written d' ++ more = wr_written d ++ bs.

Lemma wr_all_spec d bs : wr_ok (wr_events d) ->
  let '(o, d') := wr_all bs d in (o = Ok tt /\ accepted_all d bs d') \/ (o = Err (EIo OtherIo) /\ now_full d bs d').
Proof.
  intro OK. destruct (wr_all_sim bs d (mkSink (wr_written d) (wr_room (wr_events d) (wr_fails d))) (conj eq_refl OK)) as [E HP].
  destruct (wr_all bs d) as [o d']. cbn [fst snd] in *. subst o. unfold accepted_all, now_full, total. destruct HP as [ES OK'].
  destruct (wr_room (wr_events d) (wr_fails d)) as [r|]; unfold write_all in *; cbn [room written] in *.
  - destruct (Nat.leb_spec (List.length bs) r); cbn [fst snd] in *; injection ES as E1 E2; rewrite <- ?E1, <- ?E2.
    + left. repeat split; auto. rewrite app_length. f_equal. lia.
    + right. repeat split; auto.
      * rewrite app_length, firstn_length. f_equal. lia.
      * exists (skipn r bs). rewrite <- app_assoc, firstn_skipn. split; [|reflexivity]. intro X. assert (L : List.length (skipn r bs) = 0%nat) by now rewrite X. rewrite skipn_length in L. lia.
  - cbn [fst snd] in *. injection ES as E1 E2. left. rewrite <- E2, <- E1. auto.
Qed.

(** Flushing does to the device what [write_all] does, and empties the buffer if that succeeds. *)
Lemma flush_write_all : forall fuel s,
  fst (flush_loop fuel s) = fst (write_all_loop wr_write fuel (out_buf s) (out_dev s))
  /\ out_dev (snd (flush_loop fuel s)) = snd (write_all_loop wr_write fuel (out_buf s) (out_dev s))
  /\ (fst (flush_loop fuel s) = Ok tt -> out_buf (snd (flush_loop fuel s)) = []).
Proof.
  induction fuel as [|fuel IH]; intros [buf d]; destruct buf as [|b0 buf]; cbn [flush_loop out_buf out_dev write_all_loop]; try (cbn; auto; fail); [cbn; repeat split; discriminate|].
  destruct (wr_write (b0 :: buf) d) as [[n|[k|m|]|m|] d']; try (cbn; repeat split; discriminate).
  - destruct (Nat.eqb n 0); [cbn; repeat split; discriminate|]. destruct (Nat.leb n _); [|cbn; repeat split; discriminate]. exact (IH (mkOut (skipn n (b0 :: buf)) d')).
  - exact (IH (mkOut (b0 :: buf) d')).
Qed.

Lemma flush_spec s : wr_ok (wr_events (out_dev s)) ->
  let '(o, s') := flush_buf s in
  (o = Ok tt /\ out_buf s' = [] /\ accepted_all (out_dev s) (out_buf s) (out_dev s')) \/ (o = Err (EIo OtherIo) /\ now_full (out_dev s) (out_buf s) (out_dev s')).
Proof.
  intro OK. assert (W := wr_all_spec (out_dev s) (out_buf s) OK). unfold flush_buf, wr_all in *. destruct (flush_write_all (S (S (List.length (wr_events (out_dev s))))) s) as (E1 & E2 & E3).
  destruct (flush_loop _ s) as [o s']. cbn [fst snd] in *. destruct (write_all_loop wr_write _ (out_buf s) (out_dev s)) as [o' d']. cbn [fst snd] in *. subst o' d'.
  destruct W as [[-> A]|[-> A]]; [left; auto|right; auto].
Qed.

Lemma now_full_app d a b d' : now_full d a d' -> now_full d (a ++ b) d'.
Proof.
  intros (OK & T & R & more & NM & E). repeat split; auto. exists (more ++ b). split; [destruct more; [congruence|discriminate]|]. now rewrite !app_assoc, E.
Qed.
Lemma now_full_after d a d1 b d' : accepted_all d a d1 -> now_full d1 b d' -> now_full d (a ++ b) d'.
Proof. intros (_ & T1 & E1) (OK & T & R & more & NM & E). repeat split; auto; [congruence|]. exists more. split; [exact NM|]. now rewrite E, E1, app_assoc. Qed.
Lemma accepted_nil d : wr_ok (wr_events d) -> accepted_all d [] d.
Proof. intro OK. repeat split; auto. now rewrite app_nil_r. Qed.
Lemma accepted_after d a d1 b d' : accepted_all d a d1 -> accepted_all d1 b d' -> accepted_all d (a ++ b) d'.
Proof. intros (_ & T1 & E1) (OK & T & E). repeat split; auto; [congruence|]. now rewrite E, E1, app_assoc. Qed.

(** After writing [bs] to standard output. *)
Definition put_spec (s : stdout) (bs : list N) (r : outcome unit * stdout) : Prop :=
  let '(o, s') := r in
  (o = Ok tt /\ (List.length (out_buf s') <= LINE_WRITER)%nat
     /\ (exists front, front ++ out_buf s' = out_buf s ++ bs /\ accepted_all (out_dev s) front (out_dev s')))
  \/ (o = Err (EIo OtherIo) /\ now_full (out_dev s) (out_buf s ++ bs) (out_dev s')).

Lemma buf_write_spec s bs : wr_ok (wr_events (out_dev s)) -> (List.length (out_buf s) <= LINE_WRITER)%nat ->
  put_spec s bs (buf_write_all bs s).
Proof.
  intros OK LB. assert (LW : (0 < LINE_WRITER)%nat) by (unfold LINE_WRITER; lia). unfold buf_write_all. cbn zeta. destruct (Nat.ltb_spec (List.length bs) (LINE_WRITER - List.length (out_buf s))).
  { left. cbn [out_buf out_dev]. rewrite app_length. split; [reflexivity|]. split; [lia|]. exists []. split; [reflexivity|]. now apply accepted_nil. }
  assert (ST : forall s1, wr_ok (wr_events (out_dev s1)) -> ((out_buf s1 = [] \/ (out_buf s1 = out_buf s /\ (List.length bs <= LINE_WRITER - List.length (out_buf s))%nat)))%nat ->
    (exists front, front ++ out_buf s1 = out_buf s /\ accepted_all (out_dev s) front (out_dev s1)) ->
    put_spec s bs ((if Nat.leb LINE_WRITER (List.length bs) then out_direct bs else out_append bs) s1)).
  { intros s1 OK1 HB (front & EF & AF). destruct (Nat.leb_spec LINE_WRITER (List.length bs)).
    - assert (EB : out_buf s1 = []) by (destruct HB as [HB|[HB HL]]; [exact HB|destruct (out_buf s1); [reflexivity|rewrite <- HB in HL; cbn [List.length] in HL; lia]]).
      rewrite EB, app_nil_r in EF. subst front. unfold out_direct, zoom. assert (W := wr_all_spec (out_dev s1) bs OK1). destruct (wr_all bs (out_dev s1)) as [o d'].
      destruct W as [[-> A]|[-> A]]; cbn [put_spec out_buf out_dev].
      + left. rewrite EB. cbn [List.length]. split; [reflexivity|]. split; [lia|]. exists (out_buf s ++ bs). rewrite app_nil_r. split; [reflexivity|]. exact (accepted_after _ _ _ _ _ AF A).
      + right. split; [reflexivity|]. exact (now_full_after _ _ _ _ _ AF A).
    - left. cbn [out_buf out_dev]. rewrite app_length. split; [reflexivity|]. split.
      + destruct HB as [->|[-> HL]]; cbn [List.length]; lia.
      + exists front. rewrite app_assoc, EF. auto. }
  destruct (Nat.ltb_spec (LINE_WRITER - List.length (out_buf s)) (List.length bs)).
  - unfold bind. assert (FS := flush_spec s OK). destruct (flush_buf s) as [o s1]. destruct FS as [(-> & EB & A)|(-> & A)].
    + apply ST; [exact (proj1 A)|auto|]. exists (out_buf s). rewrite EB, app_nil_r. auto.
    + right. split; [reflexivity|]. cbn [snd]. now apply now_full_app.
  - unfold bind, ret. apply ST; [exact OK|right; auto|]. exists []. split; [reflexivity|]. now apply accepted_nil.
Qed.

Lemma split_lines_none bs : split_lines bs = None -> ~ In 10 bs.
Proof.
  induction bs as [|b bs IH]; cbn [split_lines In]; [auto|]. destruct (split_lines bs) as [[l t]|]; [discriminate|]. destruct (N.eqb_spec b 10); [discriminate|]. intros _ [H|H]; [auto|]. now apply IH.
Qed.
Lemma split_lines_some bs : forall l t, split_lines bs = Some (l, t) -> bs = l ++ t /\ ~ In 10 t.
Proof.
  induction bs as [|b bs IH]; intros l t; cbn [split_lines]; [discriminate|]. destruct (split_lines bs) as [[l' t']|] eqn:E.
  - intro X. injection X as <- <-. destruct (IH _ _ eq_refl) as [-> H]. auto.
  - destruct (N.eqb_spec b 10); [|discriminate]. intro X. injection X as <- <-. split; [reflexivity|]. now apply split_lines_none.
Qed.

(** What was written to standard output so far is what the device took and what is buffered, without a newline. *)
Definition pending (n : option nat) (s : stdout) (t : sink) : Prop :=
  t = mkSink (wr_written (out_dev s) ++ out_buf s) None /\ ~ In 10 (out_buf s) /\ (List.length (out_buf s) <= LINE_WRITER)%nat
  /\ wr_ok (wr_events (out_dev s)) /\ total (out_dev s) = n.
(** The device is full and has taken the beginning only. *)
Definition stuck (n : option nat) (s : stdout) (t : sink) : Prop :=
  wr_ok (wr_events (out_dev s)) /\ total (out_dev s) = n /\ wr_room (wr_events (out_dev s)) (wr_fails (out_dev s)) = Some 0%nat
  /\ exists more, more <> [] /\ t = mkSink (wr_written (out_dev s) ++ more) None.

Lemma out_spec s bs o s' : wr_ok (wr_events (out_dev s)) -> ~ In 10 (out_buf s) -> (List.length (out_buf s) <= LINE_WRITER)%nat ->
  out_write_all bs s = (o, s') -> put_spec s bs (o, s') /\ (o = Ok tt -> ~ In 10 (out_buf s')).
Proof.
  intros OK NL LB. unfold out_write_all. destruct (split_lines bs) as [[l t]|] eqn:ES.
  - apply split_lines_some in ES. destruct ES as [-> NT]. unfold bind at 1.
    assert (LS : let '(o, s1) := (match out_buf s with [] => out_direct l | _ => buf_write_all l ;;; flush_buf end) s in
      (o = Ok tt /\ out_buf s1 = [] /\ accepted_all (out_dev s) (out_buf s ++ l) (out_dev s1)) \/ (o = Err (EIo OtherIo) /\ now_full (out_dev s) (out_buf s ++ l) (out_dev s1))).
    { destruct (out_buf s) as [|b0 buf] eqn:EB.
      - unfold out_direct, zoom. assert (W := wr_all_spec (out_dev s) l OK). destruct (wr_all l (out_dev s)) as [o1 d']. cbn. rewrite EB. destruct W as [[-> A]|[-> A]]; auto.
      - rewrite <- EB in *. unfold bind. assert (B := buf_write_spec s l OK LB). destruct (buf_write_all l s) as [o1 s1]. destruct B as [(-> & LB1 & front & EF & AF)|(-> & A)].
        + assert (FS := flush_spec s1 (proj1 AF)). destruct (flush_buf s1) as [o1 s2]. destruct FS as [(-> & EB2 & A)|(-> & A)]; [left|right]; (split; [reflexivity|]).
          * split; [exact EB2|]. rewrite <- EF. exact (accepted_after _ _ _ _ _ AF A).
          * rewrite <- EF. exact (now_full_after _ _ _ _ _ AF A).
        + right. auto. }
    destruct ((match out_buf s with [] => out_direct l | _ => buf_write_all l ;;; flush_buf end) s) as [o1 s1]. destruct LS as [(-> & EB & A)|(-> & A)].
    + assert (B := buf_write_spec s1 t (proj1 A) ltac:(rewrite EB; cbn [List.length]; lia)). intro E. rewrite E in B. destruct B as [(-> & LB2 & front & EF & AF)|(-> & B)].
      * rewrite EB in EF. cbn in EF. split.
        -- left. split; [reflexivity|]. split; [exact LB2|]. exists ((out_buf s ++ l) ++ front). rewrite <- app_assoc, EF, <- app_assoc. split; [reflexivity|]. exact (accepted_after _ _ _ _ _ A AF).
        -- intros _ X. apply NT. rewrite <- EF. apply in_or_app. right. exact X.
      * split; [|discriminate]. right. split; [reflexivity|]. rewrite EB in B. cbn in B. rewrite app_assoc. exact (now_full_after _ _ _ _ _ A B).
    + intro E. injection E as <- <-. split; [|discriminate]. right. split; [reflexivity|]. rewrite app_assoc. now apply now_full_app.
  - apply split_lines_none in ES. assert (LL : last (out_buf s) 0 <> 10).
    { destruct (out_buf s) as [|b0 buf] eqn:EB; [discriminate|]. intro X. apply NL. rewrite <- X. rewrite (app_removelast_last 0 (l := b0 :: buf)) at 2 by discriminate. apply in_or_app. right. now left. }
    destruct (N.eqb_spec (last (out_buf s) 0) 10); [congruence|]. unfold bind, ret. assert (B := buf_write_spec s bs OK LB). intro E. rewrite E in B. split; [exact B|].
    intros ->. destruct B as [(_ & _ & front & EF & _)|(X & _)]; [|discriminate]. intro I.
    assert (Y : In 10 (out_buf s ++ bs)) by (rewrite <- EF; apply in_or_app; right; exact I). apply in_app_iff in Y. tauto.
Qed.

Lemma out_simf n bs : simf false (pending n) (stuck n) (out_write_all bs) (write_all bs).
Proof.
  split.
  - intros s t (-> & NL & LB & OK & T). destruct (out_write_all bs s) as [o s'] eqn:EO. assert (O := out_spec s bs o s' OK NL LB EO). unfold write_all. cbn [room written fst snd].
    destruct O as [[(-> & LB' & front & EF & OK' & T' & EW)|(-> & OK' & T' & R & more & NM & EW)] NL'].
    + left. split; [reflexivity|]. split; [|repeat split; auto; congruence]. rewrite EW, <- !app_assoc, EF. reflexivity.
    + right. split; [reflexivity|]. split; [exact OK'|]. split; [congruence|]. split; [exact R|]. exists more. split; [exact NM|]. now rewrite EW, <- app_assoc.
  - intros s t (OK & T & R & more & NM & ->). unfold write_all. cbn. repeat split; auto. exists (more ++ bs). rewrite app_assoc. split; [destruct more; [congruence|discriminate]|reflexivity].
Qed.

(** ** The commands *)
Section Writers.
  Context {W : Type} (all : list N -> M W unit) (p : bool) (P F : W -> sink -> Prop).
  Hypothesis all_simf : forall bs, simf p P F (all bs) (write_all bs).

  (** A component besides the writer *)
  Definition beside {X} (a : X * W) (b : X * sink) : Prop := fst a = fst b /\ P (snd a) (snd b).
  Definition beside_f {X} (a : X * W) (b : X * sink) : Prop := F (snd a) (snd b).

  Lemma put_simf {X} (bs : list N) :
    simf p beside beside_f (zoom snd (fun s (st : X * W) => (fst st, s)) (all bs)) (zoom snd (fun s (st : X * sink) => (fst st, s)) (write_all bs)).
  Proof.
    destruct (all_simf bs) as [H1 H2]. split.
    - intros [x w] [y t] [E H]. cbn [fst snd] in *. subst y. unfold zoom. cbn [fst snd]. destruct (H1 _ _ H) as [[E HP]|[E HF]];
        destruct (all bs w) as [o1 w1], (write_all bs t) as [o2 t1]; cbn [fst snd] in *; subst; [left|right]; (split; [reflexivity|]); [split|]; auto.
    - intros [x w] [y t] H. unfold zoom, beside_f in *. cbn [fst snd] in *. apply H2 in H. destruct (write_all bs t). exact H.
  Qed.

  Lemma push_simf (f : circ -> outcome circ) bs :
    simf p beside beside_f
      (fun st => match f (fst st) with Ok d => let '(o, out) := all bs (snd st) in (o, (d, out)) | Err e => (Err e, st) | Panic m => (Panic m, st) | Diverge => (Diverge, st) end)
      (fun st => match f (fst st) with Ok d => let '(o, out) := write_all bs (snd st) in (o, (d, out)) | Err e => (Err e, st) | Panic m => (Panic m, st) | Diverge => (Diverge, st) end).
  Proof.
    destruct (all_simf bs) as [H1 H2]. split.
    - intros [x w] [y t] [E H]. cbn [fst snd] in *. subst y. destruct (f x) as [d| | |]; try (left; split; [reflexivity|split; auto]). destruct (H1 _ _ H) as [[E HP]|[E HF]];
        destruct (all bs w) as [o1 w1], (write_all bs t) as [o2 t1]; cbn [fst snd] in *; subst; [left|right]; (split; [reflexivity|]); [split|]; auto.
    - intros [x w] [y t] H. unfold beside_f in *. cbn [fst snd] in *. destruct (f y) as [d| | |]; auto. apply H2 in H. destruct (write_all bs t). exact H.
  Qed.

  Lemma copy_loop_simf : forall n rf, simf p beside beside_f (io_copy_loop all n rf) (cb_copy_loop n rf).
  Proof.
    induction n as [|n IH]; intro rf; cbn [io_copy_loop cb_copy_loop]; [apply simf_ret|]. split.
    - intros [x w] [y t] [E H]. cbn [fst snd] in *. subst y. destruct (get_idx (cb_data x) rf) as [byte| | |]; try (left; split; [reflexivity|split; auto]). cbn zeta.
      destruct (all_simf [byte]) as [H1 H2]. destruct (H1 _ _ H) as [[E HP]|[E HF]]; destruct (all [byte] w) as [o1 w1], (write_all [byte] t) as [o2 t1]; cbn [fst snd] in *; subst.
      + destruct o2; try (left; split; [reflexivity|split; auto]). destruct (cb_push x byte) as [d| | |]; try (left; split; [reflexivity|split; auto]). apply IH. split; auto.
      + right. assert (X : beside_f (x, w1) (snd (match o2 with Ok _ => match cb_push x byte with Ok b' => cb_copy_loop n ((rf + 1) mod List.length (cb_data x))%nat (b', t1)
            | Err e => (Err e, (x, t1)) | Panic m => (Panic m, (x, t1)) | Diverge => (Diverge, (x, t1)) end | Err e => (Err e, (x, t1)) | Panic m => (Panic m, (x, t1)) | Diverge => (Diverge, (x, t1)) end))).
        { destruct o2; try exact HF. destruct (cb_push x byte) as [d| | |]; try exact HF. apply IH. exact HF. }
        unfold bad. destruct p; (split; [reflexivity|exact X]).
    - intros [x w] [y t] H. unfold beside_f in H. cbn [snd] in H. destruct (get_idx (cb_data y) rf) as [byte| | |]; try exact H. cbn zeta.
      destruct (all_simf [byte]) as [_ H2]. apply H2 in H. destruct (write_all [byte] t) as [o2 t1]. cbn [snd] in H. destruct o2; try exact H. destruct (cb_push y byte) as [d| | |]; try exact H.
      apply IH. exact H.
  Qed.
  Lemma copy_simf dist len : simf p beside beside_f (io_copy all dist len) (cb_copy dist len).
  Proof.
    assert (B : forall d, simf p beside beside_f (read_from <- lift (cb_read_from d dist) ;; io_copy_loop all (N.to_nat len) read_from) (read_from <- lift (cb_read_from d dist) ;; cb_copy_loop (N.to_nat len) read_from)).
    { intro d. apply simf_bind; [apply simf_lift|]. intro. apply copy_loop_simf. }
    split.
    - intros [x w] [y t] [E H]. cbn [fst snd] in *. subst y. unfold io_copy, cb_copy. cbn [fst]. destruct ((0 <? dist) && (dist <=? cb_valid x)); [|left; split; [reflexivity|split; auto]].
      apply B. split; auto.
    - intros a [y t] H. unfold cb_copy. cbn [fst]. destruct ((0 <? dist) && (dist <=? cb_valid y)); [|exact H]. apply B. exact H.
  Qed.
  Lemma codes_simf : forall codes, simf p beside beside_f (io_decompressed_codes all codes) (decompressed_codes codes).
  Proof.
    induction codes as [|[byte|r] codes IH]; cbn [io_decompressed_codes decompressed_codes]; [apply simf_ret|..]; (apply simf_bind; [|intros _; exact IH]).
    - exact (push_simf (fun c => cb_push c byte) [byte]).
    - apply copy_simf.
  Qed.
  Lemma block_simf block : simf p beside beside_f (io_decompressed_block all block) (decompressed_block block).
  Proof.
    destruct block as [data|codes|trees codes]; cbn [io_decompressed_block decompressed_block]; [|apply codes_simf..]. exact (push_simf (fun c => cb_extend c data) data).
  Qed.

  Lemma zero_loop_simf : forall fuel len csum, simf p beside beside_f (io_zero_loop all fuel len csum) (zero_loop fuel len csum).
  Proof.
    induction fuel as [|fuel IH]; intros len csum; cbn [io_zero_loop zero_loop]; [apply simf_lift|].
    assert (B : forall buf reader, simf p beside beside_f
      (let put bs := zoom snd (fun s (st : byte_iter * W) => (fst st, s)) (all bs) in
       put [if negb (is_nil reader) then 0 else 1] ;;; put (le_bytes 2 (N.of_nat (List.length buf) mod 65536)) ;;; put (le_bytes 2 (N.lxor (N.of_nat (List.length buf) mod 65536) 65535)) ;;; put buf ;;;
       io_zero_loop all fuel ((len + N.of_nat (List.length buf)) mod 2 ^ 32) (crc_update csum buf))
      (let put bs := zoom snd (fun s (st : byte_iter * sink) => (fst st, s)) (write_all bs) in
       put [if negb (@is_nil (N + errkind) reader) then 0 else 1] ;;; put (le_bytes 2 (N.of_nat (List.length buf) mod 65536)) ;;; put (le_bytes 2 (N.lxor (N.of_nat (List.length buf) mod 65536) 65535)) ;;; put buf ;;;
       zero_loop fuel ((len + N.of_nat (List.length buf)) mod 2 ^ 32) (crc_update csum buf))).
    { intros buf reader. cbn zeta. do 4 (apply simf_bind; [apply put_simf|]; intros _). apply IH. }
    split.
    - intros [x w] [y t] [E H]. cbn [fst snd] in *. subst y. destruct (take_rsync x) as [[buf| | |] reader]; try (left; split; [reflexivity|split; auto]). cbn zeta.
      destruct (is_nil buf); [left; split; [reflexivity|split; auto]|]. apply (B buf reader). split; auto.
    - intros a [y t] H. cbn [fst snd] in *. destruct (take_rsync y) as [[buf| | |] reader]; try exact H. cbn zeta. destruct (is_nil buf); [exact H|]. apply (B buf reader). exact H.
  Qed.

  Section Readers.
    Context {R : Type} (exact : nat -> M R (list N)) (left : R -> nat) (Q : R -> source -> Prop).
    Hypothesis exact_sim : forall n, sim Q (exact n) (read_exact n).
    Hypothesis left_sim : forall r s, Q r s -> left r = List.length (rest s).

    Lemma cat_loop_simf : forall fuel a b, it_rel Q a b -> simf p beside beside_f (io_cat_loop all exact left fuel a) (cat_loop fuel b).
    Proof.
      induction fuel as [|fuel IH]; intros a b H; cbn [io_cat_loop cat_loop]; [apply simf_lift|]. destruct (sim_next exact left Q exact_sim left_sim a b H) as [E HP].
      destruct (io_next exact left a) as [o1 t1], (bi_next b) as [o2 t2]. cbn [fst snd] in *. subst o2. destruct o1 as [[blk|]| | |]; try apply simf_ret; try apply simf_lift.
      apply simf_bind; [apply block_simf|]. intros _. now apply IH.
    Qed.

    Definition ends_like (a : outcome unit * W) (b : outcome unit * sink) : Prop := (fst a = fst b /\ P (snd a) (snd b)) \/ (fst a = bad p /\ F (snd a) (snd b)).

    Lemma cat_simf r s w t : Q r s -> P w t -> ends_like (io_cat_run all exact left r w) (cat_run s t).
    Proof.
      intros H HW. unfold ends_like, io_cat_run, cat_run. destruct (sim_header exact left Q exact_sim left_sim r s H) as [E HP].
      destruct (io_discard_header exact left r) as [o1 t1], (discard_header s) as [o2 t2]. cbn [fst snd] in *. subst o2. destruct o1; try (left; split; [reflexivity|exact HW]).
      destruct cb_new as [d| | |]; try (left; split; [reflexivity|exact HW]). rewrite (left_sim _ _ HP).
      destruct (proj1 (cat_loop_simf (8 * List.length (rest t2) + 2) (io_parse_deflate t1) (parse_deflate t2) (it_new Q _ _ HP)) (d, w) (d, t) (conj eq_refl HW)) as [[E1 [_ E2]]|[E1 E2]];
        destruct (io_cat_loop all exact left _ _ (d, w)) as [o1 [d1 w1]], (cat_loop _ _ (d, t)) as [o2 [d2 w2]]; cbn [fst snd] in *; auto.
    Qed.

    Lemma zero_simf (inf : R -> byte_iter) inflate r s w t : (forall r s, Q r s -> inf r = inflate s) -> Q r s -> P w t ->
      ends_like (io_zero_run all exact left inf r w) (zero_run inflate s t).
    Proof.
      intros HI H HW. unfold ends_like, io_zero_run, zero_run. destruct (sim_header exact left Q exact_sim left_sim r s H) as [E HP].
      destruct (io_discard_header exact left r) as [o1 t1], (discard_header s) as [o2 t2]. cbn [fst snd] in *. subst o2. destruct o1 as [h| | |]; try (left; split; [reflexivity|exact HW]).
      rewrite (HI _ _ HP). cbn zeta. destruct (is_nil (inflate t2)); [left; split; [reflexivity|exact HW]|].
      set (bytes := inflate t2).
      assert (B : simf p beside beside_f
        (let put bs := zoom snd (fun s (st : byte_iter * W) => (fst st, s)) (all bs) in
         put h ;;; r <- io_zero_loop all (S (List.length bytes)) 0 crc_digest ;; let '(data_len, data_csum) := r in put (le_bytes 4 (crc_finalize data_csum)) ;;; put (le_bytes 4 data_len))
        (let put bs := zoom snd (fun s (st : byte_iter * sink) => (fst st, s)) (write_all bs) in
         put h ;;; r <- zero_loop (S (List.length bytes)) 0 crc_digest ;; let '(data_len, data_csum) := r in put (le_bytes 4 (crc_finalize data_csum)) ;;; put (le_bytes 4 data_len))).
      { cbn zeta. apply simf_bind; [apply put_simf|]. intros _. apply simf_bind; [apply zero_loop_simf|]. intros [dl dc]. apply simf_bind; [apply put_simf|]. intros _. apply put_simf. }
      cbn zeta in B. destruct (proj1 B (bytes, w) (bytes, t) (conj eq_refl HW)) as [[E1 [_ E2]]|[E1 E2]];
        match type of B with simf _ _ _ ?m1 ?m2 => destruct (m1 (bytes, w)) as [o1 [d1 w1]], (m2 (bytes, t)) as [o2 [d2 w2]] end; cbn [fst snd] in *; auto.
    Qed.
  End Readers.
End Writers.

(** *** dump *)
Section Print.
  Context {W : Type} (all : list N -> M W unit) (P F : W -> sink -> Prop).
  Hypothesis all_simf : forall bs, simf false P F (all bs) (write_all bs).
  Context (split : list N -> list (list N)) (HS : forall l, List.concat (split l) = l).

  Lemma pieces_simf : forall ps, simf false P F (write_pieces all ps) (write_pieces write_all ps).
  Proof. induction ps as [|x ps IH]; cbn [write_pieces]; [apply simf_ret|]. apply simf_bind; [apply all_simf|]. intros _. exact IH. Qed.
  Lemma println_simf l : simf true P F (io_println all split l) (io_println write_all split l).
  Proof.
    destruct (pieces_simf (split (l ++ [10]))) as [H1 H2]. unfold io_println. split.
    - intros s t H. destruct (H1 s t H) as [[E HP]|[E HF]]; destruct (write_pieces all _ s) as [o1 s1], (write_pieces write_all _ t) as [o2 t1]; cbn [fst snd] in *; subst.
      + left. destruct o2; split; auto.
      + right. unfold bad. split; [reflexivity|]. destruct o2; exact HF.
    - intros s t H. apply H2 in H. destruct (write_pieces write_all _ t) as [o2 t1]. cbn [snd] in H. destruct o2; exact H.
  Qed.
  Lemma lines_simf : forall lines, simf true P F (io_print_lines all split lines) (io_print_lines write_all split lines).
  Proof.
    induction lines as [|l lines IH]; cbn [io_print_lines]; [apply simf_ret|]. apply simf_bind; [apply simf_lift|]. intro t. apply simf_bind; [apply println_simf|]. intros _. exact IH.
  Qed.
End Print.

Lemma pieces_sink ps w : write_pieces write_all ps (mkSink w None) = (Ok tt, mkSink (w ++ List.concat ps) None).
Proof.
  revert w. induction ps as [|x ps IH]; intro w; cbn [write_pieces List.concat]; [now rewrite app_nil_r|]. unfold bind, write_all. cbn [room written]. now rewrite IH, app_assoc.
Qed.
Lemma lines_sink split : (forall l, List.concat (split l) = l) -> forall lines text w, dump_text lines = Ok text ->
  io_print_lines write_all split lines (mkSink w None) = (Ok tt, mkSink (w ++ text) None).
Proof.
  intro HS. induction lines as [|l lines IH]; intros text w; cbn [dump_text io_print_lines].
  - intro E. injection E as <-. now rewrite app_nil_r.
  - unfold bind, lift, obind. destruct (dump_line_text l) as [t| | |]; try discriminate. destruct (dump_text lines) as [more| | |]; try discriminate. intro E. injection E as <-.
    unfold io_println. rewrite pieces_sink, HS. rewrite (IH more) by reflexivity. now rewrite <- !app_assoc.
Qed.

(** *** At exit *)
Lemma pending_exit n s text : pending n s (mkSink text None) ->
  let d := wr_written (out_dev (snd (flush_buf s))) in
  match n with
  | None => d = text
  | Some n => d = firstn n text /\ ((List.length text <= n)%nat \/ ((List.length text <= n + LINE_WRITER)%nat /\ ~ In 10 (skipn n text)))
  end.
Proof.
  intros (E & NL & LB & OK & T). injection E as ->. assert (FS := flush_spec s OK). destruct (flush_buf s) as [o s']. cbn [snd]. cbn zeta.
  destruct FS as [(_ & _ & OK' & T' & EW)|(_ & OK' & T' & R' & more & NM & EW)].
  - destruct n as [n|]; [|exact EW]. assert (LN : (List.length (wr_written (out_dev s')) <= n)%nat).
    { unfold total in *. rewrite T in T'. destruct (wr_room (wr_events (out_dev s')) _); [injection T' as <-; lia|discriminate]. }
    rewrite EW in *. split; [symmetry; apply firstn_all2; lia|left; lia].
  - rewrite T in T'. unfold total in T' at 1. rewrite R' in T'. rewrite Nat.add_0_l in T'. rewrite <- T' in *. clear T'. rewrite <- EW.
    assert (LD : (List.length (wr_written (out_dev s)) <= List.length (wr_written (out_dev s')))%nat).
    { unfold total in T. destruct (wr_room (wr_events (out_dev s)) _); [injection T as T; lia|discriminate]. }
    rewrite firstn_app, skipn_app, Nat.sub_diag, firstn_all, skipn_all. cbn [firstn skipn]. rewrite app_nil_r. split; [reflexivity|]. right. cbn [app].
    assert (EM : more = skipn (List.length (wr_written (out_dev s')) - List.length (wr_written (out_dev s))) (out_buf s)).
    { transitivity (skipn (List.length (wr_written (out_dev s'))) (wr_written (out_dev s') ++ more)).
      - rewrite skipn_app, Nat.sub_diag, skipn_all. reflexivity.
      - rewrite EW, skipn_app, skipn_all2 by lia. reflexivity. }
    split.
    + rewrite app_length, EM, skipn_length. lia.
    + rewrite EM. intro X. apply NL. rewrite <- (firstn_skipn (List.length (wr_written (out_dev s')) - List.length (wr_written (out_dev s))) (out_buf s)). apply in_or_app. right. exact X.
Qed.

Lemma stuck_exit n s text : stuck n s (mkSink text None) ->
  exists k, n = Some k /\ (k < List.length text)%nat /\ wr_written (out_dev (snd (flush_buf s))) = firstn k text.
Proof.
  intros (OK & T & R & more & NM & E). injection E as ->. unfold total in T. rewrite R in T. subst n. exists (List.length (wr_written (out_dev s))). split; [reflexivity|]. split.
  { rewrite app_length. destruct more; [congruence|cbn; lia]. }
  rewrite firstn_app, Nat.sub_diag, firstn_all. cbn [firstn]. rewrite app_nil_r.
  assert (FS := flush_spec s OK). destruct (flush_buf s) as [o s']. cbn [snd].
  destruct FS as [(_ & _ & OK' & T' & EW)|(_ & OK' & T' & R' & more' & NM' & EW)].
  - unfold total in T'. rewrite R in T'. destruct (wr_room (wr_events (out_dev s')) _); [|discriminate]. injection T' as T'. rewrite EW, app_length in T'. rewrite EW.
    destruct (out_buf s); [apply app_nil_r|cbn [List.length] in T'; lia].
  - unfold total in T'. rewrite R, R' in T'. injection T' as T'. apply (f_equal (firstn (List.length (wr_written (out_dev s'))))) in EW.
    rewrite firstn_app, Nat.sub_diag, firstn_all in EW. cbn [firstn] in EW. rewrite app_nil_r in EW. rewrite EW at 1. rewrite T', firstn_app, Nat.sub_diag, firstn_all. cbn [firstn]. apply app_nil_r.
Qed.

Definition delivered_as (room : option nat) (status ok failure : option N) (delivered text : list N) : Prop :=
  match room with
  | None => status = ok /\ delivered = text
  | Some n =>
      delivered = firstn n text
      /\ ((status = ok /\ ((List.length text <= n)%nat \/ ((List.length text <= n + LINE_WRITER)%nat /\ ~ In 10 (skipn n text))))
          \/ ((n < List.length text)%nat /\ status = failure))
  end.

Lemma ends_like_exit p n a o t : ends_like p (pending n) (stuck n) a (o, t) ->
  delivered_as n (exit_status (fst a)) (exit_status o) (Some (if p then 101 else 1)) (wr_written (out_dev (snd (flush_buf (snd a))))) (written t).
Proof.
  destruct a as [o1 s]. intro H0. assert (ET : t = mkSink (written t) None).
  { destruct H0 as [[_ (H & _)]|[_ (_ & _ & _ & more & _ & H)]]; cbn [snd] in H; rewrite H; reflexivity. }
  revert H0. rewrite ET. cbn [written]. generalize (written t). clear. intro text. intros [[E H]|[E H]]; cbn [fst snd] in *; subst o1.
  - apply pending_exit in H. cbn zeta in H. unfold delivered_as. destruct n as [n|]; [destruct H as [H1 H2]; auto|auto].
  - apply stuck_exit in H. destruct H as (k & -> & L & E). cbn [delivered_as]. split; [exact E|]. right. split; [exact L|]. now destruct p.
Qed.

Lemma main_lemma : forall inflate split c w events e o text, (forall l, List.concat (split l) = l) ->
  input_of w c = Ok (mkRd events e) -> rd_ok events -> wr_written (w_device w) = [] -> wr_ok (wr_events (w_device w)) ->
  does inflate c (mkSource (rd_bytes events) e) o text ->
  delivered_as (wr_room (wr_events (w_device w)) (wr_fails (w_device w))) (fst (main_run inflate split c w)) (status_of o) (output_failure c)
    (snd (main_run inflate split c w)) text.
Proof.
  intros inflate split c w events e o text HS HI OK EW WOK HD.
  assert (EO : open_file w (command_file c) = Ok (bf_new (mkRd events e))).
  { unfold open_file, input_of in *. destruct c as [[p|]|[p|]|[p|]]; cbn [command_file]; solve [rewrite HI; reflexivity|injection HI as ->; reflexivity]. }
  unfold main_run. rewrite EO. set (n := wr_room (wr_events (w_device w)) (wr_fails (w_device w))).
  assert (HP : pending n (mkOut [] (w_device w)) new_sink).
  { split; [cbn; now rewrite EW|]. cbn [out_buf out_dev List.length]. split; [intros []|]. split; [lia|]. split; [exact WOK|]. unfold total. fold n. rewrite EW. destruct n; [cbn; f_equal; lia|reflexivity]. }
  assert (HB : buffered (bf_new (mkRd events e)) (mkSource (rd_bytes events) e)) by (split; [reflexivity|exact OK]).
  destruct c as [f|f|f]; cbn [does run_command output_failure] in *.
  - assert (X := cat_simf out_write_all false (pending n) (stuck n) (out_simf n) bf_exact bf_left buffered bf_exact_sim bf_left_sim _ _ _ _ HB HP). destruct HD as (t & HD & <-). rewrite HD in X.
    apply ends_like_exit in X. destruct (io_cat_run out_write_all bf_exact bf_left _ _) as [o1 s1]. exact X.
  - destruct HD as (lines & ED & ET). unfold io_dump_print. rewrite (dump_run_eq bf_exact bf_left buffered bf_exact_sim bf_left_sim _ _ HB), ED.
    assert (X : ends_like true (pending n) (stuck n) (bind (io_print_lines out_write_all split lines) (fun _ => lift o) (mkOut [] (w_device w))) (o, mkSink text None)).
    { assert (Y := proj1 (simf_bind true (pending n) (stuck n) _ _ _ _ (lines_simf out_write_all (pending n) (stuck n) (out_simf n) split lines) (fun _ => simf_lift true (pending n) (stuck n) o)) _ _ HP).
      assert (EQ : bind (io_print_lines write_all split lines) (fun _ => lift o) new_sink = (o, mkSink text None)).
      { unfold bind, lift, new_sink. rewrite (lines_sink split HS lines text [] ET). reflexivity. }
      rewrite EQ in Y. exact Y. }
    apply ends_like_exit in X. destruct (bind (io_print_lines out_write_all split lines) _ _) as [o1 s1]. exact X.
  - assert (X := zero_simf out_write_all false (pending n) (stuck n) (out_simf n) bf_exact bf_left buffered bf_exact_sim bf_left_sim (fun b => inflate (bf_source b)) inflate _ _ _ _
      (fun r s H => f_equal inflate (eq_sym (proj1 H))) HB HP). destruct HD as (t & HD & <-). rewrite HD in X.
    apply ends_like_exit in X. destruct (io_zero_run out_write_all bf_exact bf_left _ _ _) as [o1 s1]. exact X.
Qed.

(** ** C75 *)
Lemma C75_lemma : forall inflate split c w events e o text, (forall l, List.concat (split l) = l) ->
  input_of w c = Ok (mkRd events e) -> rd_ok events ->
  wr_written (w_device w) = [] -> wr_ok (wr_events (w_device w)) -> wr_fails (w_device w) = false ->
  does inflate c (mkSource (rd_bytes events) e) o text ->
  main_run inflate split c w = (status_of o, text).
Proof.
  intros inflate split c w events e o text HS HI OK EW WOK WF HD. assert (X := main_lemma inflate split c w events e o text HS HI OK EW WOK HD).
  rewrite WF in X. unfold wr_room in X. destruct (main_run inflate split c w) as [st d]. cbn in X. destruct X as [-> ->]. reflexivity.
Qed.

Lemma C75_lemma_always : forall inflate c file e, bytes_ok file -> exists o text, does inflate c (mkSource file e) o text.
Proof.
  intros inflate c file e OK. destruct c as [f|f|f]; cbn [does].
  - destruct (cat_run (mkSource file e) new_sink) as [o out] eqn:E. exists o, (written out), out. auto.
  - destruct (C69_lemma_dump file e file e OK OK) as (t & _ & ET & _). destruct (dump_run (mkSource file e)) as [lines o]. exists o, t, lines. auto.
  - destruct (zero_run inflate (mkSource file e) new_sink) as [o out] eqn:E. exists o, (written out), out. auto.
Qed.

Lemma C75_lemma_missing : forall inflate split c w er, input_of w c = Err er -> wr_written (w_device w) = [] ->
  main_run inflate split c w = (Some 1, []).
Proof.
  intros inflate split c w er HI EW. unfold main_run. assert (EO : open_file w (command_file c) = Err er).
  { unfold open_file, input_of in *. destruct c as [[p|]|[p|]|[p|]]; cbn [command_file]; solve [rewrite HI; reflexivity|discriminate]. }
  rewrite EO. cbn. now rewrite EW.
Qed.

(** ** C76 *)
Lemma C76_lemma : forall inflate split c w events e o text n, (forall l, List.concat (split l) = l) ->
  input_of w c = Ok (mkRd events e) -> rd_ok events ->
  wr_written (w_device w) = [] -> wr_ok (wr_events (w_device w)) -> wr_room (wr_events (w_device w)) (wr_fails (w_device w)) = Some n ->
  does inflate c (mkSource (rd_bytes events) e) o text ->
  exists status, main_run inflate split c w = (status, firstn n text)
    /\ ((status = status_of o /\ (skipn n text = [] \/ ((List.length (skipn n text) <= N.to_nat 1024)%nat /\ ~ In 10 (skipn n text))))
        \/ (skipn n text <> [] /\ status = output_failure c)).
Proof.
  intros inflate split c w events e o text n HS HI OK EW WOK WF HD. assert (X := main_lemma inflate split c w events e o text HS HI OK EW WOK HD).
  rewrite WF in X. destruct (main_run inflate split c w) as [st d]. cbn [fst snd delivered_as] in X. destruct X as [-> X]. exists st. split; [reflexivity|].
  destruct X as [[-> [X|[X Y]]]|[X ->]].
  - left. split; [reflexivity|]. left. now apply skipn_all2.
  - left. split; [reflexivity|]. right. split; [|exact Y]. rewrite skipn_length. fold LINE_WRITER. lia.
  - right. split; [|reflexivity]. intro Y. assert (L : List.length (skipn n text) = 0%nat) by now rewrite Y. rewrite skipn_length in L. lia.
Qed.

Lemma dump_text_last lines : forall text, dump_text lines = Ok text -> text = [] \/ exists front, text = front ++ [10].
Proof.
  induction lines as [|l lines IH]; intros text; cbn [dump_text]; [intro E; injection E as <-; auto|]. unfold obind.
  destruct (dump_line_text l) as [t| | |]; try discriminate. destruct (dump_text lines) as [more| | |]; try discriminate. intro E. injection E as <-. right.
  destruct (IH more eq_refl) as [->|(front & ->)]; [exists t; reflexivity|]. exists (t ++ [10] ++ front). now rewrite <- !app_assoc.
Qed.

Lemma C76_lemma_dump : forall inflate split file w events e o text n, (forall l, List.concat (split l) = l) ->
  input_of w (Dump file) = Ok (mkRd events e) -> rd_ok events ->
  wr_written (w_device w) = [] -> wr_ok (wr_events (w_device w)) -> wr_room (wr_events (w_device w)) (wr_fails (w_device w)) = Some n ->
  does inflate (Dump file) (mkSource (rd_bytes events) e) o text ->
  main_run inflate split (Dump file) w = (if Nat.leb (List.length text) n then status_of o else Some 101, firstn n text).
Proof.
  intros inflate split file w events e o text n HS HI OK EW WOK WF HD. destruct (C76_lemma inflate split (Dump file) w events e o text n HS HI OK EW WOK WF HD) as (st & -> & X).
  f_equal. destruct HD as (lines & _ & HT). apply dump_text_last in HT. destruct (Nat.leb_spec (List.length text) n) as [L|L].
  - destruct X as [[-> _]|[X _]]; [reflexivity|]. exfalso. apply X. now apply skipn_all2.
  - destruct X as [[-> [X|[_ X]]]|[_ ->]]; [exfalso..|reflexivity].
    + assert (Z : List.length (skipn n text) = 0%nat) by now rewrite X. rewrite skipn_length in Z. lia.
    + destruct HT as [->|(front & ->)]; [cbn in L; lia|]. apply X. rewrite app_length in L. cbn [List.length] in L. rewrite skipn_app. apply in_or_app. right.
      replace (n - List.length front)%nat with 0%nat by lia. now left.
Qed.

Lemma C76_lemma_refuted : exists c w events e o text lost, input_of w c = Ok (mkRd events e) /\ rd_ok events
  /\ wr_written (w_device w) = [] /\ wr_ok (wr_events (w_device w)) /\ lost <> []
  /\ (forall inflate, does inflate c (mkSource (rd_bytes events) e) o text)
  /\ forall inflate split, exists delivered, main_run inflate split c w = (Some 0, delivered) /\ text = delivered ++ lost.
Proof.
  set (file := [31; 139; 8; 0; 0; 0; 0; 0; 4; 3] ++ [99; 100; 98; 6; 0]).
  exists (Cat None), (mkWorld (fun _ => Err (EIo OtherIo)) (mkRd [RBytes file] UnexpectedEof) (mkWr [] [] true)), [RBytes file], UnexpectedEof, (Ok tt), [1; 2; 3], [1; 2; 3].
  split; [reflexivity|]. split; [intros [H|[]]; discriminate|]. split; [reflexivity|]. split; [intros []|]. split; [discriminate|]. split.
  - intro inflate. exists (mkSink [1; 2; 3] None). split; [vm_compute|]; reflexivity.
  - intros inflate split. exists []. split; [vm_compute; reflexivity|reflexivity].
Qed.
