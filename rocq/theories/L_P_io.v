(** Proofs of C70 and C71. *)
From Verif Require Import Base M_bit M_lib M_code_tree M_huffman M_circles M_gzip M_parse M_serialise M_trace M_filter M_rezippers M_dump M_io Clients_io L_bits L_io.
From Coq Require Import ZArith ZifyBool ZifyNat ZifyN.
Ltac Zify.zify_post_hook ::= Z.div_mod_to_equations.
Local Open Scope N_scope.
Local Open Scope model_scope.

Lemma sim_results {S1 S2 A} (P : S1 -> S2 -> Prop) (m1 : M S1 A) m2 : sim P m1 m2 ->
  forall n s1 s2, P s1 s2 -> results m1 n s1 = results m2 n s2 /\ P (after m1 n s1) (after m2 n s2).
Proof.
  intros H. induction n as [|n IH]; intros s1 s2 HP; cbn [results after]; [auto|]. destruct (H s1 s2 HP) as [E HP']. destruct (IH _ _ HP') as [E2 HP2].
  destruct (m1 s1) as [o1 t1], (m2 s2) as [o2 t2]. cbn [fst snd] in *. subst o2. split; [now f_equal|exact HP2].
Qed.

(** ** Readers *)
Definition plain (r : reader) (s : source) : Prop := s = mkSource (rd_bytes (rd_events r)) (rd_final r) /\ rd_ok (rd_events r).
Definition hashed (total : list N) (f : Filter reader) (s : source) : Prop := plain (f_inner f) s /\ total = f_hash f ++ rest s.

Lemma rd_ok_cons e ev : rd_ok (e :: ev) -> e <> RBytes [] /\ rd_ok ev.
Proof. unfold rd_ok. cbn [In]. tauto. Qed.

Lemma exact_zero s : read_exact 0 s = (Ok [], s).
Proof. unfold read_exact. cbn. now destruct s. Qed.

Lemma exact_more bs l e n : (List.length bs <= n)%nat ->
  read_exact n (mkSource (bs ++ l) e) = bind (read_exact (n - List.length bs)) (fun more => ret (bs ++ more)) (mkSource l e).
Proof.
  intro H. unfold read_exact, bind, ret. cbn [rest at_end]. rewrite app_length. destruct (Nat.leb_spec n (List.length bs + List.length l)), (Nat.leb_spec (n - List.length bs) (List.length l)); try lia.
  - rewrite firstn_app, skipn_app. rewrite firstn_all2, skipn_all2 by lia. reflexivity.
  - reflexivity.
Qed.
Lemma exact_less bs l e n : (n < List.length bs)%nat -> read_exact n (mkSource (bs ++ l) e) = (Ok (firstn n bs), mkSource (skipn n bs ++ l) e).
Proof.
  intro H. unfold read_exact. cbn [rest at_end]. rewrite app_length. destruct (Nat.leb_spec n (List.length bs + List.length l)); [|lia].
  rewrite firstn_app, skipn_app. replace (n - List.length bs)%nat with 0%nat by lia. cbn [firstn skipn]. now rewrite app_nil_r.
Qed.

Lemma sim_pair {S1 S2 A B} (P : S1 -> S2 -> Prop) (m1 : M S1 A) m2 (f : A -> B) s1 s2 :
  fst (m1 s1) = fst (m2 s2) /\ P (snd (m1 s1)) (snd (m2 s2)) ->
  fst (bind m1 (fun x => ret (f x)) s1) = fst (bind m2 (fun x => ret (f x)) s2) /\ P (snd (bind m1 (fun x => ret (f x)) s1)) (snd (bind m2 (fun x => ret (f x)) s2)).
Proof. unfold bind, ret. destruct (m1 s1) as [o1 t1], (m2 s2) as [o2 t2]. cbn [fst snd]. intros [-> H]. destruct o2; auto. Qed.

(** [read_exact] behaves the same on a reader whose [read] hands out the events in order; [get] finds the reader in the
    state and [inv] is kept when bytes are handed out. *)
Section Exact.
  Context {S : Type} (get : S -> reader) (read : nat -> M S (list N)) (P : S -> source -> Prop).
  Hypothesis P_plain : forall s src, P s src -> plain (get s) src.
  Hypothesis read_spec : forall n s src, P s src -> n <> 0%nat ->
    match rd_events (get s) with
    | [] => match rd_final (get s) with UnexpectedEof => fst (read n s) = Ok [] | OtherIo => fst (read n s) = Err (EIo OtherIo) end /\ P (snd (read n s)) src
    | RInterrupted :: ev => fst (read n s) = Err EInterrupted /\ rd_events (get (snd (read n s))) = ev /\ P (snd (read n s)) src
    | RBytes bs :: ev =>
        if Nat.leb (List.length bs) n
        then fst (read n s) = Ok bs /\ rd_events (get (snd (read n s))) = ev /\ P (snd (read n s)) (mkSource (rd_bytes ev) (rd_final (get s)))
        else fst (read n s) = Ok (firstn n bs) /\ P (snd (read n s)) (mkSource (skipn n bs ++ rd_bytes ev) (rd_final (get s)))
    end.

  Lemma exact_loop_sim : forall fuel n s src, P s src -> (List.length (rd_events (get s)) < fuel)%nat ->
    fst (read_exact_loop read fuel n s) = fst (read_exact n src) /\ P (snd (read_exact_loop read fuel n s)) (snd (read_exact n src)).
  Proof.
    induction fuel as [|fuel IH]; intros n s src HP HF; [lia|]. destruct n as [|n]; [rewrite exact_zero; now split|].
    cbn [read_exact_loop]. assert (RS := read_spec (Datatypes.S n) s src HP ltac:(lia)). assert (PL := P_plain _ _ HP). destruct PL as [ES OK].
    destruct (rd_events (get s)) as [|[bs|] ev] eqn:EV.
    - destruct RS as [RS HP']. destruct (read (Datatypes.S n) s) as [o s']. cbn [fst snd] in *. cbn [rd_bytes flat_map] in ES.
      assert (EX : read_exact (Datatypes.S n) src = (Err (EIo (rd_final (get s))), src)) by (rewrite ES; reflexivity). rewrite EX.
      destruct (rd_final (get s)); subst o; split; auto.
    - apply rd_ok_cons in OK. destruct OK as [NB OK]. cbn [rd_bytes flat_map] in ES. destruct (Nat.leb_spec (List.length bs) (Datatypes.S n)) as [LE|LT].
      + destruct RS as (E & EV' & HP'). destruct (read (Datatypes.S n) s) as [o s']. cbn [fst snd] in *. subst o.
        destruct bs as [|b0 bs]; [congruence|]. set (chunk := b0 :: bs) in *. assert (X : match chunk with [] => false | _ => true end = true) by reflexivity. 
        destruct (Nat.leb_spec (List.length chunk) (Datatypes.S n)); [|lia]. subst src. fold (rd_bytes ev). rewrite exact_more by lia.
        change (match chunk with [] => (Err (EIo UnexpectedEof), s') | _ :: _ => (bind (read_exact_loop read fuel (Datatypes.S n - List.length chunk)) (fun more => ret (chunk ++ more))) s' end)
          with (bind (read_exact_loop read fuel (Datatypes.S n - List.length chunk)) (fun more => ret (chunk ++ more)) s').
        apply sim_pair. apply IH; [exact HP'|]. rewrite EV'. cbn [List.length] in HF. lia.
      + destruct RS as (E & HP'). destruct (read (Datatypes.S n) s) as [o s']. cbn [fst snd] in *. subst o.
        assert (LF : List.length (firstn (Datatypes.S n) bs) = Datatypes.S n) by (rewrite firstn_length; lia).
        subst src. fold (rd_bytes ev). rewrite exact_less by lia. destruct (firstn (Datatypes.S n) bs) as [|c0 cs] eqn:EF; [cbn in LF; lia|]. rewrite LF.
        destruct (Nat.leb_spec (Datatypes.S n) (Datatypes.S n)); [|lia]. rewrite Nat.sub_diag.
        assert (Z : forall fuel s, read_exact_loop read fuel 0 s = (Ok [], s)) by (intros [|?] ?; reflexivity). unfold bind, ret. rewrite Z. cbn [fst snd]. rewrite app_nil_r. now split.
    - destruct RS as (E & EV' & HP'). destruct (read (Datatypes.S n) s) as [o s']. cbn [fst snd] in *. subst o. apply IH; [exact HP'|]. rewrite EV'. cbn [List.length] in HF. lia.
  Qed.
End Exact.

Lemma rd_read_spec n r : n <> 0%nat -> rd_ok (rd_events r) ->
  match rd_events r with
  | [] => match rd_final r with UnexpectedEof => fst (rd_read n r) = Ok [] | OtherIo => fst (rd_read n r) = Err (EIo OtherIo) end /\ snd (rd_read n r) = r
  | RInterrupted :: ev => rd_read n r = (Err EInterrupted, mkRd ev (rd_final r))
  | RBytes bs :: ev =>
      if Nat.leb (List.length bs) n then rd_read n r = (Ok bs, mkRd ev (rd_final r))
      else rd_read n r = (Ok (firstn n bs), mkRd (RBytes (skipn n bs) :: ev) (rd_final r)) /\ rd_ok (RBytes (skipn n bs) :: ev)
  end.
Proof.
  intros HN OK. unfold rd_read. destruct (rd_events r) as [|[bs|] ev] eqn:E.
  - destruct (rd_final r); split; reflexivity.
  - destruct (Nat.leb_spec (List.length bs) n); [reflexivity|]. split; [reflexivity|]. apply rd_ok_cons in OK. destruct OK as [_ OK]. intros [X|X]; [|now apply OK].
    injection X as X. assert (L : List.length (skipn n bs) = 0%nat) by now rewrite X. rewrite skipn_length in L. lia.
  - reflexivity.
Qed.

Lemma rd_exact_sim n : sim plain (rd_exact n) (read_exact n).
Proof.
  intros r s H. unfold rd_exact. apply (exact_loop_sim (fun r => r) rd_read plain); [auto| |exact H|lia]. clear. intros n s src [-> OK] HN.
  assert (RS := rd_read_spec n s HN OK). destruct (rd_events s) as [|[bs|] ev] eqn:EV.
  - destruct RS as [RS ->]. split; [exact RS|]. split; rewrite EV; [reflexivity|auto].
  - apply rd_ok_cons in OK. destruct OK as [_ OK]. destruct (Nat.leb (List.length bs) n).
    + rewrite RS. cbn. repeat split. exact OK.
    + destruct RS as [-> OK']. cbn. repeat split. exact OK'.
  - apply rd_ok_cons in OK. destruct OK as [_ OK]. rewrite RS. cbn. repeat split. exact OK.
Qed.
Lemma rd_left_sim r s : plain r s -> rd_left r = List.length (rest s).
Proof.
  intros [-> _]. unfold rd_left, rd_bytes. cbn [rest]. induction (rd_events r) as [|[bs|] ev IH]; cbn [fold_right flat_map]; [reflexivity| |exact IH]. rewrite app_length. now rewrite IH.
Qed.

Lemma frd_exact_sim total n : sim (hashed total) (frd_exact n) (read_exact n).
Proof.
  intros f s H. unfold frd_exact. apply (exact_loop_sim f_inner (fr_read rd_read) (hashed total)); [intros ? ? [? _]; auto| |exact H|lia].
  clear. intros n f src [[-> OK] ET] HN. cbn [rest] in ET. assert (RS := rd_read_spec n (f_inner f) HN OK). unfold fr_read. destruct (rd_events (f_inner f)) as [|[bs|] ev] eqn:EV.
  - destruct RS as [RS E]. destruct (rd_read n (f_inner f)) as [o r']. cbn [fst snd] in *. subst r'. assert (X : plain (f_inner f) (mkSource (rd_bytes []) (rd_final (f_inner f)))) by (split; rewrite EV; auto).
    destruct (rd_final (f_inner f)); subst o; (split; [reflexivity|]); cbn; (split; [exact X|]); cbn; rewrite ?app_nil_r in *; exact ET.
  - apply rd_ok_cons in OK. destruct OK as [_ OK]. destruct (Nat.leb_spec (List.length bs) n).
    + rewrite RS. destruct (Nat.leb_spec (List.length bs) n); [|lia]. cbn. repeat split; [exact OK|]. cbn. rewrite <- app_assoc. exact ET.
    + destruct RS as [-> OK']. rewrite firstn_length. destruct (Nat.leb_spec (Nat.min n (List.length bs)) n); [|lia]. cbn. repeat split; [exact OK'|]. cbn.
      rewrite <- app_assoc. rewrite (app_assoc (firstn n bs)), firstn_skipn. exact ET.
  - apply rd_ok_cons in OK. destruct OK as [_ OK]. rewrite RS. cbn. repeat split; [exact OK|exact ET].
Qed.
Lemma frd_left_sim total f s : hashed total f s -> frd_left f = List.length (rest s).
Proof. intros [H _]. now apply rd_left_sim. Qed.

(** *** C70 *)
Lemma start events e : rd_ok events -> plain (mkRd events e) (mkSource (rd_bytes events) e).
Proof. intro H. now split. Qed.

Lemma C70_lemma_parse : forall events e n, rd_ok events ->
  let split := after (io_next rd_exact rd_left) n (io_parse_deflate (mkRd events e)) in
  let whole := after bi_next n (parse_deflate (mkSource (rd_bytes events) e)) in
  results (io_next rd_exact rd_left) n (io_parse_deflate (mkRd events e)) = results bi_next n (parse_deflate (mkSource (rd_bytes events) e))
  /\ rd_bytes (rd_events (io_inner (ii_inner split))) = rest (br_inner (bi_inner whole)).
Proof.
  intros events e n OK. cbn zeta.
  destruct (sim_results _ _ _ (sim_next rd_exact rd_left plain rd_exact_sim rd_left_sim) n _ _ (it_new plain _ _ (start events e OK))) as [E [(HP & _) _]].
  split; [exact E|]. destruct HP as [-> _]. reflexivity.
Qed.

Lemma C70_lemma_header : forall events e, rd_ok events ->
  let '(o, left_over) := io_discard_header rd_exact rd_left (mkRd events e) in
  let '(o', left_over') := discard_header (mkSource (rd_bytes events) e) in
  o = o' /\ rd_bytes (rd_events left_over) = rest left_over'.
Proof.
  intros events e OK. destruct (sim_header rd_exact rd_left plain rd_exact_sim rd_left_sim _ _ (start events e OK)) as [E HP].
  destruct (io_discard_header rd_exact rd_left (mkRd events e)) as [o r], (discard_header (mkSource (rd_bytes events) e)) as [o' s]. cbn [fst snd] in *. split; [exact E|]. destruct HP as [-> _]. reflexivity.
Qed.

Lemma C70_lemma_traces : forall events e, rd_ok events ->
  fst (io_st_read rd_exact rd_left (mkRd events e)) = fst (st_read (mkSource (rd_bytes events) e)).
Proof. intros events e OK. exact (proj1 (sim_st_read rd_exact rd_left plain rd_exact_sim rd_left_sim _ _ (start events e OK))). Qed.

Lemma C70_lemma_dump : forall events e, rd_ok events -> io_dump_run rd_exact rd_left (mkRd events e) = dump_run (mkSource (rd_bytes events) e).
Proof. intros events e OK. exact (dump_run_eq rd_exact rd_left plain rd_exact_sim rd_left_sim _ _ (start events e OK)). Qed.

Lemma C70_lemma_filter : forall events e n, rd_ok events ->
  let f := after (io_next frd_exact frd_left) n (io_parse_deflate (filter_new (mkRd events e))) in
  let whole := after bi_next n (parse_deflate (mkSource (rd_bytes events) e)) in
  results (io_next frd_exact frd_left) n (io_parse_deflate (filter_new (mkRd events e))) = results bi_next n (parse_deflate (mkSource (rd_bytes events) e))
  /\ rd_bytes events = f_hash (io_inner (ii_inner f)) ++ rest (br_inner (bi_inner whole)).
Proof.
  intros events e n OK. cbn zeta. assert (H : hashed (rd_bytes events) (filter_new (mkRd events e)) (mkSource (rd_bytes events) e)) by (split; [now apply start|reflexivity]).
  destruct (sim_results _ _ _ (sim_next frd_exact frd_left _ (frd_exact_sim (rd_bytes events)) (frd_left_sim (rd_bytes events))) n _ _ (it_new _ _ _ H)) as [E [(HP & _) _]].
  split; [exact E|]. exact (proj2 HP).
Qed.

(** ** Writers *)
Definition accepts (w : writer) (s : sink) : Prop := s = mkSink (wr_written w) (wr_room (wr_events w) (wr_fails w)) /\ wr_ok (wr_events w).
Definition hashing (f : Filter writer) (s : sink) : Prop := accepts (f_inner f) s /\ f_hash f = wr_written (f_inner f).

Lemma wr_ok_cons e ev : wr_ok (e :: ev) -> e <> WAccept 0 /\ wr_ok ev.
Proof. unfold wr_ok. cbn [In]. tauto. Qed.

Lemma write_nil s : write_all [] s = (Ok tt, s).
Proof. unfold write_all. cbn. destruct s as [w [r|]]; cbn; rewrite app_nil_r; [rewrite Nat.sub_0_r|]; reflexivity. Qed.

(** Writing in two steps. *)
Definition enough (n : nat) (rm : option nat) : Prop := match rm with Some r => (n <= r)%nat | None => True end.
Lemma write_split a b w rm : enough (List.length a) rm ->
  write_all (a ++ b) (mkSink w rm) = write_all b (snd (write_all a (mkSink w rm))).
Proof.
  destruct rm as [r|]; cbn [enough]; intro H; unfold write_all; cbn [room written].
  - destruct (Nat.leb_spec (List.length a) r); [|lia]. cbn [snd room written]. rewrite app_length.
    destruct (Nat.leb_spec (List.length a + List.length b) r), (Nat.leb_spec (List.length b) (r - List.length a)); try lia.
    + rewrite app_assoc. do 3 f_equal. lia.
    + rewrite firstn_app, firstn_all2 by lia. rewrite app_assoc. reflexivity.
  - cbn [snd room written]. now rewrite app_assoc.
Qed.
Lemma write_enough a w rm : enough (List.length a) rm ->
  write_all a (mkSink w rm) = (Ok tt, mkSink (w ++ a) (match rm with Some r => Some (r - List.length a)%nat | None => None end)).
Proof. destruct rm as [r|]; cbn [enough]; intro H; unfold write_all; cbn [room written]; [destruct (Nat.leb_spec (List.length a) r); [reflexivity|lia]|reflexivity]. Qed.

Section All.
  Context {S : Type} (get : S -> writer) (write : list N -> M S nat) (P : S -> sink -> Prop).
  Hypothesis P_accepts : forall s snk, P s snk -> accepts (get s) snk.
  Hypothesis write_spec : forall buf s snk, P s snk -> buf <> [] ->
    match wr_events (get s) with
    | [] => if wr_fails (get s) then fst (write buf s) = Err (EIo OtherIo) /\ P (snd (write buf s)) snk
            else fst (write buf s) = Ok (List.length buf) /\ P (snd (write buf s)) (snd (write_all buf snk))
    | WInterrupted :: ev => fst (write buf s) = Err EInterrupted /\ wr_events (get (snd (write buf s))) = ev /\ P (snd (write buf s)) snk
    | WAccept k :: ev =>
        if Nat.leb k (List.length buf)
        then fst (write buf s) = Ok k /\ wr_events (get (snd (write buf s))) = ev /\ P (snd (write buf s)) (snd (write_all (firstn k buf) snk))
        else fst (write buf s) = Ok (List.length buf) /\ P (snd (write buf s)) (snd (write_all buf snk))
    end.

  Lemma all_loop_sim : forall fuel buf s snk, P s snk -> (List.length (wr_events (get s)) < fuel)%nat ->
    fst (write_all_loop write fuel buf s) = fst (write_all buf snk) /\ P (snd (write_all_loop write fuel buf s)) (snd (write_all buf snk)).
  Proof.
    induction fuel as [|fuel IH]; intros buf s snk HP HF; [lia|]. destruct buf as [|b0 bs]; [rewrite write_nil; now split|]. cbn [write_all_loop].
    set (buf := b0 :: bs) in *. assert (HN : buf <> []) by discriminate. assert (WS := write_spec buf s snk HP HN). destruct (P_accepts _ _ HP) as [ES OK].
    assert (LB : (0 < List.length buf)%nat) by (cbn; lia). clearbody buf.
    assert (Z : forall fuel s, write_all_loop write fuel [] s = (Ok tt, s)) by (intros [|?] ?; reflexivity).
    assert (DONE : enough (List.length buf) (wr_room (wr_events (get s)) (wr_fails (get s))) -> fst (write buf s) = Ok (List.length buf) /\ P (snd (write buf s)) (snd (write_all buf snk)) ->
      fst (match write buf s with
           | (Ok n, s') => if Nat.eqb n 0 then (Err (EIo OtherIo), s') else if Nat.leb n (List.length buf) then write_all_loop write fuel (skipn n buf) s' else (Panic "range start index out of range", s')
           | (Err EInterrupted, s') => write_all_loop write fuel buf s'
           | (Err e, s') => (Err e, s')
           | (Panic m, s') => (Panic m, s')
           | (Diverge, s') => (Diverge, s')
           end) = fst (write_all buf snk)
      /\ P (snd (match write buf s with
           | (Ok n, s') => if Nat.eqb n 0 then (Err (EIo OtherIo), s') else if Nat.leb n (List.length buf) then write_all_loop write fuel (skipn n buf) s' else (Panic "range start index out of range", s')
           | (Err EInterrupted, s') => write_all_loop write fuel buf s'
           | (Err e, s') => (Err e, s')
           | (Panic m, s') => (Panic m, s')
           | (Diverge, s') => (Diverge, s')
           end)) (snd (write_all buf snk))).
    { intros HE [E HP']. destruct (write buf s) as [o s']. cbn [fst snd] in *. subst o. destruct (Nat.eqb_spec (List.length buf) 0); [lia|]. destruct (Nat.leb_spec (List.length buf) (List.length buf)); [|lia].
      rewrite skipn_all, Z. subst snk. rewrite write_enough in * by exact HE. auto. }
    destruct (wr_events (get s)) as [|[k|] ev] eqn:EV.
    - destruct (wr_fails (get s)) eqn:EF; [|apply DONE; [exact I|exact WS]].
      destruct WS as [E HP']. destruct (write buf s) as [o s']. cbn [fst snd] in *. subst o snk. unfold write_all. cbn. destruct (Nat.leb_spec (List.length buf) 0); [lia|]. cbn. rewrite app_nil_r. auto.
    - apply wr_ok_cons in OK. destruct OK as [NK OK]. destruct (Nat.leb_spec k (List.length buf)) as [LE|LT].
      + destruct WS as (E & EV' & HP'). destruct (write buf s) as [o s']. cbn [fst snd] in *. subst o. destruct (Nat.eqb_spec k 0); [subst; congruence|]. destruct (Nat.leb_spec k (List.length buf)); [|lia].
        assert (LF : List.length (firstn k buf) = k) by (rewrite firstn_length; lia).
        assert (HE : enough (List.length (firstn k buf)) (wr_room (WAccept k :: ev) (wr_fails (get s)))) by (unfold wr_room, enough; destruct (wr_fails (get s)); [rewrite LF; cbn; lia|exact I]).
        rewrite <- (firstn_skipn k buf) at 2 4. subst snk. rewrite write_split by exact HE. apply IH; [exact HP'|]. rewrite EV'. cbn [List.length] in HF. lia.
      + apply DONE; [unfold wr_room, enough; destruct (wr_fails (get s)); [cbn; lia|exact I]|exact WS].
    - apply wr_ok_cons in OK. destruct OK as [_ OK]. destruct WS as (E & EV' & HP'). destruct (write buf s) as [o s']. cbn [fst snd] in *. subst o. apply IH; [exact HP'|]. rewrite EV'. cbn [List.length] in HF. lia.
  Qed.
End All.

Lemma wr_write_spec buf w : buf <> [] -> wr_ok (wr_events w) ->
  match wr_events w with
  | [] => if wr_fails w then wr_write buf w = (Err (EIo OtherIo), w) else wr_write buf w = (Ok (List.length buf), mkWr (wr_written w ++ buf) [] false)
  | WInterrupted :: ev => wr_write buf w = (Err EInterrupted, mkWr (wr_written w) ev (wr_fails w))
  | WAccept k :: ev =>
      if Nat.leb k (List.length buf) then wr_write buf w = (Ok k, mkWr (wr_written w ++ firstn k buf) ev (wr_fails w))
      else wr_write buf w = (Ok (List.length buf), mkWr (wr_written w ++ buf) (WAccept (k - List.length buf) :: ev) (wr_fails w)) /\ wr_ok (WAccept (k - List.length buf) :: ev)
  end.
Proof.
  intros HN OK. unfold wr_write. destruct (wr_events w) as [|[k|] ev] eqn:E.
  - destruct (wr_fails w); reflexivity.
  - destruct (Nat.leb_spec k (List.length buf)); [reflexivity|]. split; [reflexivity|]. apply wr_ok_cons in OK. destruct OK as [_ OK]. intros [X|X]; [|now apply OK]. injection X as X. lia.
  - reflexivity.
Qed.

(** The sink after an accepted write. *)
Lemma accepted w buf ev : wr_ok ev -> enough (List.length buf) (wr_room (wr_events w) (wr_fails w)) ->
  wr_room ev (wr_fails w) = match wr_room (wr_events w) (wr_fails w) with Some r => Some (r - List.length buf)%nat | None => None end ->
  accepts (mkWr (wr_written w ++ buf) ev (wr_fails w)) (snd (write_all buf (mkSink (wr_written w) (wr_room (wr_events w) (wr_fails w))))).
Proof. intros OK HE ER. rewrite write_enough by exact HE. cbn [snd]. split; [cbn; now rewrite ER|exact OK]. Qed.

Lemma wr_all_sim bs : sim accepts (wr_all bs) (write_all bs).
Proof.
  intros w s H. unfold wr_all. apply (all_loop_sim (fun w => w) wr_write accepts); [auto| |exact H|lia]. clear. intros buf w snk [-> OK] HN.
  assert (WS := wr_write_spec buf w HN OK). destruct (wr_events w) as [|[k|] ev] eqn:EV.
  - destruct (wr_fails w) eqn:EF; rewrite WS; cbn [fst snd]; (split; [reflexivity|]).
    + split; rewrite EV, ?EF; [reflexivity|auto].
    + rewrite write_enough by exact I. split; [reflexivity|cbn; auto].
  - apply wr_ok_cons in OK. destruct OK as [NK OK]. destruct (Nat.leb_spec k (List.length buf)).
    + rewrite WS. cbn [fst snd wr_events]. split; [reflexivity|]. split; [reflexivity|]. rewrite <- EV. apply accepted; [exact OK|rewrite EV..]; unfold wr_room; destruct (wr_fails w); cbn [enough]; try exact I; try reflexivity;
        rewrite firstn_length; cbn [fold_right]; [|f_equal]; lia.
    + destruct WS as [-> OK']. cbn [fst snd]. split; [reflexivity|]. rewrite <- EV. apply accepted; [exact OK'|rewrite EV..]; unfold wr_room; destruct (wr_fails w); cbn [enough]; try exact I; try reflexivity;
        cbn [fold_right]; [|f_equal]; lia.
  - apply wr_ok_cons in OK. destruct OK as [_ OK]. rewrite WS. cbn. repeat split. exact OK.
Qed.

Lemma fwr_all_sim bs : sim hashing (fwr_all bs) (write_all bs).
Proof.
  intros f s H. unfold fwr_all. apply (all_loop_sim f_inner (fw_write wr_write) hashing); [intros ? ? [? _]; auto| |exact H|lia]. clear. intros buf f snk [[-> OK] EH] HN.
  assert (WS := wr_write_spec buf (f_inner f) HN OK). unfold fw_write. destruct (wr_events (f_inner f)) as [|[k|] ev] eqn:EV.
  - destruct (wr_fails (f_inner f)) eqn:EF; rewrite WS; cbn [fst snd].
    + split; [reflexivity|]. split; [|exact EH]. split; cbn; rewrite EV, ?EF; [reflexivity|auto].
    + destruct (Nat.leb_spec (List.length buf) (List.length buf)); [|lia]. cbn [fst snd]. split; [reflexivity|]. rewrite write_enough by exact I. split; [split; [reflexivity|cbn; auto]|].
      cbn. now rewrite firstn_all, EH.
  - apply wr_ok_cons in OK. destruct OK as [NK OK]. destruct (Nat.leb_spec k (List.length buf)).
    + rewrite WS. destruct (Nat.leb_spec k (List.length buf)); [|lia]. cbn [fst snd f_inner wr_events]. split; [reflexivity|]. split; [reflexivity|]. split; [|cbn; now rewrite EH].
      cbn [f_inner]. rewrite <- EV. apply accepted; [exact OK|rewrite EV..]; unfold wr_room; destruct (wr_fails (f_inner f)); cbn [enough]; try exact I; try reflexivity;
        rewrite firstn_length; cbn [fold_right]; [|f_equal]; lia.
    + destruct WS as [-> OK']. destruct (Nat.leb_spec (List.length buf) (List.length buf)); [|lia]. cbn [fst snd]. split; [reflexivity|]. split; [|cbn; now rewrite firstn_all, EH].
      cbn [f_inner]. rewrite <- EV. apply accepted; [exact OK'|rewrite EV..]; unfold wr_room; destruct (wr_fails (f_inner f)); cbn [enough]; try exact I; try reflexivity;
        cbn [fold_right]; [|f_equal]; lia.
  - apply wr_ok_cons in OK. destruct OK as [_ OK]. rewrite WS. cbn. repeat split; [exact OK|exact EH].
Qed.

(** *** C71 *)
Lemma C71_lemma_compress : forall events fails blocks, wr_ok events ->
  let '(o, w) := iw_blocks wr_all blocks (iw_new (mkWr [] events fails)) in
  let '(o', w') := compress_blocks blocks (bw_new (mkSink [] (wr_room events fails))) in
  o = o' /\ wr_written (iw_inner w) = written (bw_inner w').
Proof.
  intros events fails blocks OK. assert (H : wr_rel accepts (iw_new (mkWr [] events fails)) (bw_new (mkSink [] (wr_room events fails)))) by (repeat split; exact OK).
  destruct (sim_blocks wr_all accepts wr_all_sim blocks _ _ H) as [E HP].
  destruct (iw_blocks wr_all blocks _) as [o w], (compress_blocks blocks _) as [o' w']. cbn [fst snd] in *. split; [exact E|]. destruct HP as [[-> _] _]. reflexivity.
Qed.

Lemma C71_lemma_filter : forall events fails blocks, wr_ok events ->
  let '(o, w) := iw_blocks fwr_all blocks (iw_new (filter_new (mkWr [] events fails))) in
  let '(o', w') := compress_blocks blocks (bw_new (mkSink [] (wr_room events fails))) in
  o = o' /\ wr_written (f_inner (iw_inner w)) = written (bw_inner w') /\ f_hash (iw_inner w) = written (bw_inner w').
Proof.
  intros events fails blocks OK. assert (H : wr_rel hashing (iw_new (filter_new (mkWr [] events fails))) (bw_new (mkSink [] (wr_room events fails)))) by (repeat split; exact OK).
  destruct (sim_blocks fwr_all hashing fwr_all_sim blocks _ _ H) as [E HP].
  destruct (iw_blocks fwr_all blocks _) as [o w], (compress_blocks blocks _) as [o' w']. cbn [fst snd] in *. split; [exact E|]. destruct HP as [[[-> _] EH] _]. auto.
Qed.

Lemma C71_lemma_cat : forall revents e wevents fails, rd_ok revents -> wr_ok wevents ->
  let '(o, w) := io_cat_run wr_all rd_exact rd_left (mkRd revents e) (mkWr [] wevents fails) in
  let '(o', w') := cat_run (mkSource (rd_bytes revents) e) (mkSink [] (wr_room wevents fails)) in
  o = o' /\ wr_written w = written w'.
Proof.
  intros revents e wevents fails OK OKW. assert (H : accepts (mkWr [] wevents fails) (mkSink [] (wr_room wevents fails))) by (split; [reflexivity|exact OKW]).
  destruct (sim_cat wr_all accepts wr_all_sim rd_exact rd_left plain rd_exact_sim rd_left_sim _ _ _ _ (start revents e OK) H) as [E HP].
  destruct (io_cat_run wr_all rd_exact rd_left _ _) as [o w], (cat_run _ _) as [o' w']. cbn [fst snd] in *. split; [exact E|]. destruct HP as [-> _]. reflexivity.
Qed.
