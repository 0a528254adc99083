(** Proofs of C89: what a guess depends on. *)
From Verif Require Import Base M_bit M_lib M_all_refs M_technique M_trace Spec Clients Spec_encoder Clients_encoder Clients_local
  L_bits L_ring L_search L_P_search L_tech L_P_tech L_trace L_strace L_P_trace L_P_encoder.
From Coq Require Import ZArith ZifyBool ZifyNat ZifyN.
Ltac Zify.zify_post_hook ::= Z.div_mod_to_equations.
Local Open Scope N_scope.
Local Open Scope model_scope.

(** [w1] from [k] on is [w2], as far as position [hi]. *)
Definition agree (k hi : nat) (w1 w2 : list N) : Prop := forall i, (i < hi)%nat -> nth_error w1 (k + i) = nth_error w2 i.

Lemma agree_less k hi hi' w1 w2 : agree k hi w1 w2 -> (hi' <= hi)%nat -> agree k hi' w1 w2.
Proof. intros A L i Hi. apply A. lia. Qed.

Lemma nth_of_error (w w' : list N) i j : nth_error w i = nth_error w' j -> nth i w 0 = nth j w' 0.
Proof.
  intro E. destruct (nth_error w' j) as [x|] eqn:E'.
  - now rewrite (nth_error_nth _ _ 0 E), (nth_error_nth _ _ 0 E').
  - apply nth_error_None in E, E'. now rewrite !nth_overflow by assumption.
Qed.

Lemma three_nth w p : three w p = match nth_error w p, nth_error w (p + 1), nth_error w (p + 2) with
  | Some a, Some b, Some c => [a; b; c] | Some a, Some b, None => [a; b] | Some a, None, _ => [a] | None, _, _ => [] end.
Proof.
  unfold three. revert w. induction p as [|p IH]; intro w.
  - destruct w as [|a [|b [|c w]]]; reflexivity.
  - destruct w as [|a w]; [reflexivity|]. cbn [skipn]. rewrite IH. reflexivity.
Qed.

Lemma agree_hash k hi w1 w2 q : agree k hi w1 w2 -> (q + 2 < hi)%nat -> hash3 w1 (k + q) = hash3 w2 q.
Proof.
  intros A Hq. unfold hash3. assert (E0 := nth_of_error _ _ _ _ (A q ltac:(lia))). assert (E1 := nth_of_error _ _ _ _ (A (q + 1)%nat ltac:(lia))).
  assert (E2 := nth_of_error _ _ _ _ (A (q + 2)%nat ltac:(lia))). rewrite !Nat.add_assoc in E1, E2. now rewrite E0, E1, E2.
Qed.

Lemma agree_three k hi w1 w2 q : agree k hi w1 w2 -> (q + 2 < hi)%nat -> three w1 (k + q) = three w2 q.
Proof.
  intros A Hq. rewrite !three_nth. rewrite <- (A q) by lia. rewrite <- (A (q + 1)%nat), <- (A (q + 2)%nat) by lia. now rewrite !Nat.add_assoc.
Qed.

Lemma hidden_moved k runs q : hidden (moved k runs) (k + q) = hidden runs q.
Proof.
  unfold hidden, moved. induction runs as [|[s l] runs IH]; [reflexivity|]. cbn [map existsb fst snd]. rewrite IH. f_equal. f_equal.
  - destruct (Nat.ltb_spec (k + s) (k + q)), (Nat.ltb_spec s q); try reflexivity; lia.
  - destruct (Nat.ltb_spec (k + q) (k + s + N.to_nat l)), (Nat.ltb_spec q (s + N.to_nat l)); try reflexivity; lia.
Qed.

Lemma filter_map {A B} (f : B -> bool) (g : A -> B) l : filter f (map g l) = map g (filter (fun x => f (g x)) l).
Proof. induction l as [|x l IH]; [reflexivity|]. cbn [map filter]. destruct (f (g x)); cbn [map]; now rewrite IH. Qed.

Lemma seq_moved k n : forall s, seq (k + s) n = map (fun q => (k + q)%nat) (seq s n).
Proof. induction n as [|n IH]; intro s; [reflexivity|]. cbn [seq map]. f_equal. replace (S (k + s)) with (k + S s)%nat by lia. apply IH. Qed.

Lemma candidates_moved k pos w1 w2 limit runs : agree k (pos + 3) w1 w2 -> k = 0%nat \/ 32768 < N.of_nat pos -> (1 <= pos)%nat ->
  candidates w1 limit (moved k runs) (k + pos) = map (fun q => (k + q)%nat) (candidates w2 limit runs pos).
Proof.
  intros A HK HP. unfold candidates.
  replace (k + pos - 1)%nat with (k + (pos - 1))%nat by lia. rewrite seq_app, rev_app_distr. replace (1 + k)%nat with (k + 1)%nat by lia. rewrite seq_moved, <- map_rev, filter_app.
  rewrite firstn_app, filter_app.
  match goal with |- _ ++ ?x = _ => assert (EX : x = []) end.
  { apply filter_nil. intros q HQ. apply firstn_In, filter_In in HQ. destruct HQ as [HQ _]. rewrite <- in_rev, in_seq in HQ.
    destruct HK as [->|HK]; [lia|]. destruct (N.leb_spec (N.of_nat (k + pos - q)) 32768); [lia|reflexivity]. }
  rewrite EX, app_nil_r. rewrite filter_map, firstn_map, filter_map. f_equal.
  rewrite (filter_ext_in (fun x => (hash3 w1 (k + x) =? hash3 w1 (k + pos)) && negb (hidden (moved k runs) (k + x)))
             (fun q => (hash3 w2 q =? hash3 w2 pos) && negb (hidden runs q))).
  - apply filter_ext_in. intros q HQ. apply firstn_In, filter_In in HQ. destruct HQ as [HQ _]. rewrite <- in_rev, in_seq in HQ.
    rewrite !(agree_three _ _ _ _ _ A) by lia. now replace (k + pos - (k + q))%nat with (pos - q)%nat by lia.
  - intros q HQ. rewrite <- in_rev, in_seq in HQ. rewrite !(agree_hash _ _ _ _ _ A) by lia. now rewrite hidden_moved.
Qed.

Lemma longest_moved k pos w1 w2 d n : agree k (pos + 258) w1 w2 -> (pos < List.length w2)%nat -> (d <= pos)%nat ->
  longest_match w1 (k + pos) d n -> longest_match w2 pos d n.
Proof.
  intros A HP HD (H1 & H2 & H3 & H4).
  assert (LN : (pos + n <= List.length w2)%nat).
  { destruct n as [|n]; [lia|]. assert (X : nth_error w2 (pos + n) <> None).
    - rewrite <- A by lia. apply nth_error_Some. lia.
    - apply nth_error_Some in X. lia. }
  split; [exact H1|]. split; [exact LN|]. split.
  - intros i Hi. rewrite <- (A (pos + i)%nat), <- (A (pos + i - d)%nat) by lia. specialize (H3 i Hi).
    replace (k + (pos + i))%nat with (k + pos + i)%nat by lia. now replace (k + (pos + i - d))%nat with (k + pos + i - d)%nat by lia.
  - destruct (Nat.eq_dec n 258) as [|NE]; [now left|]. right. destruct H4 as [H4|[H4|H4]]; [contradiction| |].
    + left. destruct (Nat.eq_dec (pos + n) (List.length w2)) as [|NL]; [assumption|exfalso].
      assert (X : nth_error w2 (pos + n) <> None) by (apply nth_error_Some; lia). rewrite <- A in X by lia. apply X. apply nth_error_None. lia.
    + right. rewrite <- (A (pos + n)%nat), <- (A (pos + n - d)%nat) by lia.
      replace (k + (pos + n))%nat with (k + pos + n)%nat by lia. now replace (k + (pos + n - d))%nat with (k + pos + n - d)%nat by lia.
Qed.

Lemma agree_length k hi w1 w2 p : agree k hi w1 w2 -> (p < hi)%nat -> Nat.ltb (k + p) (List.length w1) = Nat.ltb p (List.length w2).
Proof.
  intros A HP. specialize (A p HP). destruct (Nat.ltb_spec (k + p) (List.length w1)) as [L|L], (Nat.ltb_spec p (List.length w2)) as [L'|L']; try reflexivity; exfalso.
  - apply nth_error_None in L'. apply nth_error_Some in L. congruence.
  - apply nth_error_None in L. apply nth_error_Some in L'. congruence.
Qed.

(** The search. *)
Lemma at_moved k pos w1 w2 a1 a2 runs : refs_of w1 a1 -> refs_of w2 a2 -> ar_limit a1 = ar_limit a2 ->
  agree k (pos + 258) w1 w2 -> k = 0%nat \/ 32768 < N.of_nat pos -> ar_at a1 (k + pos) (moved k runs) = ar_at a2 pos runs.
Proof.
  intros R1 R2 EL A HK.
  assert (X1 := ar_at_ok _ _ (k + pos)%nat (moved k runs) R1). assert (X2 := ar_at_ok _ _ pos runs R2).
  replace (k + pos + 2)%nat with (k + (pos + 2))%nat in X1 by lia. rewrite (agree_length _ _ _ _ (pos + 2) A) in X1 by lia.
  destruct (Nat.ltb_spec (pos + 2) (List.length w2)) as [LP|LP]; [|now rewrite X1, X2].
  destruct X1 as (r1 & E1 & D1 & G1). destruct X2 as (r2 & E2 & D2 & G2). rewrite E1, E2. do 2 f_equal.
  assert (DE : map r_dist r1 = map r_dist r2).
  { rewrite D1, D2, EL. destruct pos as [|pos].
    - destruct HK as [->|HK]; [|lia]. unfold candidates. cbn [Nat.add Nat.sub seq rev filter]. now rewrite !firstn_nil.
    - rewrite (candidates_moved k (S pos) w1 w2) by (try apply (agree_less _ _ _ _ _ A); auto; lia). rewrite map_map. apply map_ext. intro q. f_equal. lia. }
  revert G1 G2 DE. clear - A LP. revert r2. induction r1 as [|x r1 IH]; intros [|y r2] G1 G2 DE; cbn [map] in DE; try discriminate DE; [reflexivity|].
  injection DE as DX DE. inversion G1 as [|? ? (O1 & B1 & M1) G1']; subst. inversion G2 as [|? ? (O2 & B2 & M2) G2']; subst. f_equal; [|now apply IH].
  apply (longest_moved _ _ _ w2) in M1; [|assumption|lia|rewrite DX; lia]. rewrite DX in M1. assert (E := longest_match_unique _ _ _ _ _ M1 M2).
  destruct x as [dx lx], y as [dy ly]. unfold ref_ok, ref_len in *. cbn [r_dist r_run_minus_3] in *. f_equal; lia.
Qed.

Section Guess.
  Context (k : nat) (w1 w2 : list N) (config : Config) (a1 a2 : AllRefs) (runs : list (nat * N)).
  Context (R1 : refs_of w1 a1) (R2 : refs_of w2 a2) (EL : ar_limit a1 = ar_limit a2).
  Let t1 := mkTechnique config a1.
  Let t2 := mkTechnique config a2.

  Lemma better_moved pos other : agree k (pos + 258) w1 w2 -> k = 0%nat \/ 32768 < N.of_nat pos -> (pos < List.length w2)%nat ->
    best_candidate_better_than t1 (moved k runs) (k + pos) other = best_candidate_better_than t2 runs pos other.
  Proof.
    intros A HK HP. unfold best_candidate_better_than. cbn [t_refs t_config t1 t2].
    assert (HP1 : (k + pos < List.length w1)%nat) by (apply Nat.ltb_lt; rewrite (agree_length _ _ _ _ pos A) by lia; now apply Nat.ltb_lt).
    rewrite (ar_get_ok w1), (ar_get_ok w2) by assumption. cbn [obind]. rewrite (nth_of_error _ _ _ _ (A pos ltac:(lia))).
    rewrite (at_moved k pos w1 w2 a1 a2) by assumption. reflexivity.
  Qed.

  Lemma gzip_moved fuel : forall pos lit r, agree k (pos + 517 - N.to_nat (ref_len r)) w1 w2 -> k = 0%nat \/ 32768 < N.of_nat pos -> (pos < List.length w2)%nat -> good_ref w2 pos r ->
    la_gzip_loop fuel t1 (moved k runs) (k + pos) lit r = la_gzip_loop fuel t2 runs pos lit r.
  Proof.
    induction fuel as [|fuel IH]; intros pos lit r A HK HP G; [reflexivity|]. cbn [la_gzip_loop].
    assert (L := good_len _ _ _ G). replace (S (k + pos)) with (k + S pos)%nat by lia. rewrite better_moved by (try apply (agree_less _ _ _ _ _ A); lia).
    destruct (candidate_ok w2 t2 runs (S pos) (Some (r_run r)) R2 ltac:(lia)) as (found & E & HG). rewrite E. cbn [obind].
    destruct found as [new|]; [|reflexivity]. destruct (N.ltb_spec (r_run r) (r_run new)) as [HL|]; [|reflexivity].
    assert (GN := HG _ eq_refl). rewrite IH; [reflexivity| |lia|lia|assumption]. apply (agree_less _ _ _ _ _ A). unfold ref_len, r_run in *. lia.
  Qed.

  Lemma guess_moved pos : agree k (pos + reach (cfg_lookahead config)) w1 w2 -> k = 0%nat \/ 32768 < N.of_nat pos -> (pos < List.length w2)%nat ->
    sc_codes t1 (mkScanner (moved k runs) (k + pos)) = sc_codes t2 (mkScanner runs pos).
  Proof.
    intros A HK HP. unfold sc_codes. cbn [t_config sc_obscured sc_pos t1 t2]. fold t1 t2.
    assert (RG : (258 <= reach (cfg_lookahead config))%nat) by (destruct (cfg_lookahead config); cbn [reach]; lia).
    assert (A0 : agree k (pos + 258) w1 w2) by (apply (agree_less _ _ _ _ _ A); lia).
    destruct (candidate_ok w2 t2 runs pos None R2 HP) as (found & E & HG).
    destruct (cfg_lookahead config); cbn [lookahead reach] in *.
    - unfold la_greedy, best_candidate. now rewrite better_moved.
    - unfold la_gzip, best_candidate. rewrite better_moved by assumption. rewrite E. cbn [obind]. destruct found as [r|]; [|reflexivity].
      assert (G := HG _ eq_refl). assert (L := good_len _ _ _ G). apply gzip_moved; auto. apply (agree_less _ _ _ _ _ A). lia.
    - unfold la_three_zip, best_candidate. rewrite better_moved by assumption. rewrite E. cbn [obind]. destruct found as [r|]; [|reflexivity].
      assert (G := HG _ eq_refl). assert (L := good_len _ _ _ G). destruct (3 <? r_run r); [reflexivity|]. destruct (negb _); [reflexivity|].
      replace (k + pos + 1)%nat with (k + (pos + 1))%nat by lia. replace (k + pos + 2)%nat with (k + (pos + 2))%nat by lia.
      rewrite (better_moved (pos + 1)), (better_moved (pos + 2)) by (try apply (agree_less _ _ _ _ _ A); lia). reflexivity.
  Qed.
End Guess.

(** ** Traces *)
Definition scan_at (k : nat) (s : Scanner) : Scanner := mkScanner (moved k (sc_obscured s)) (k + sc_pos s).

Lemma feedback_moved k config a1 a2 s c : feedback (mkTechnique config a1) (scan_at k s) c = scan_at k (feedback (mkTechnique config a2) s c).
Proof.
  unfold feedback, scan_at. cbn [t_config sc_obscured sc_pos]. cbn zeta. destruct (insert_only_below_length _) as [l|]; [destruct c as [b|r]; [|destruct (r_run r <=? l)]|];
    cbn [sc_obscured sc_pos]; f_equal; try lia. unfold moved. rewrite map_app. cbn [map fst snd]. do 3 f_equal.
Qed.
Lemma feedbacks_moved k config a1 a2 cs : forall s, fold_left (feedback (mkTechnique config a1)) cs (scan_at k s) = scan_at k (fold_left (feedback (mkTechnique config a2)) cs s).
Proof. induction cs as [|c cs IH]; intro s; cbn [fold_left]; [reflexivity|]. now rewrite (feedback_moved k config a1 a2), IH. Qed.

Lemma shared_prefix_full g l m r : shared_prefix g l = (m, r) -> Nat.eqb (List.length m) (List.length g) = true -> m = g.
Proof.
  intros E L. apply Nat.eqb_eq in L. destruct (shared_prefix_spec _ _ _ _ E) as (more & H & _). rewrite H, app_length in L.
  assert (more = []) by (destruct more; [reflexivity|cbn [List.length] in L; lia]). subst more. now rewrite H, app_nil_r.
Qed.

Lemma trace_moved k config w1 w2 a1 a2 : refs_of w1 a1 -> refs_of w2 a2 -> ar_limit a1 = ar_limit a2 -> bytes_ok w2 ->
  (forall i, nth_error w1 (k + i) = nth_error w2 i) -> List.length w1 = (k + List.length w2)%nat ->
  forall f1 f2 s codes, (List.length w2 - sc_pos s < f1)%nat -> (List.length w2 - sc_pos s < f2)%nat -> 32768 < N.of_nat (sc_pos s) ->
  trace_loop f1 (mkTechnique config a1) (scan_at k s) codes = trace_loop f2 (mkTechnique config a2) s codes.
Proof.
  intros R1 R2 EL HB A ELN. set (t1 := mkTechnique config a1). set (t2 := mkTechnique config a2).
  induction f1 as [|f1 IH]; intros f2 s codes F1 F2 HP; [lia|]. destruct f2 as [|f2]; [lia|]. cbn [trace_loop].
  rewrite (more_data_spec w1 t1), (more_data_spec w2 t2) by assumption. cbn [sc_pos scan_at]. rewrite ELN.
  replace (Nat.ltb (k + sc_pos s) (k + List.length w2)) with (Nat.ltb (sc_pos s) (List.length w2))
    by (destruct (Nat.ltb_spec (sc_pos s) (List.length w2)), (Nat.ltb_spec (k + sc_pos s) (k + List.length w2)); try reflexivity; lia).
  destruct (Nat.ltb_spec (sc_pos s) (List.length w2)) as [LP|]; [|reflexivity].
  assert (EG : sc_codes t1 (scan_at k s) = sc_codes t2 s).
  { unfold scan_at. subst t1 t2. rewrite (guess_moved k w1 w2 config a1 a2) by (auto; intros i _; apply A). now destruct s. }
  rewrite EG. destruct (guess_ok w2 t2 (cfg_lookahead config) (sc_obscured s) (sc_pos s) R2 HB LP) as (g & n & EQ & NE & _).
  unfold sc_codes. cbn [t_config t2]. fold t2. rewrite EQ. cbn [obind]. destruct g as [|g0 g]; [now elim NE|].
  destruct (shared_prefix (g0 :: g) codes) as [m rest] eqn:ES. rewrite (feedbacks_moved k config a1 a2). fold t2.
  assert (FP := feedback_fold_pos t2 m s).
  destruct (Nat.eqb _ _) eqn:EM.
  - assert (m = g0 :: g) by (eapply shared_prefix_full; eassumption). subst m. assert (P := emitted_pos g0 g). rewrite (IH f2) by lia. reflexivity.
  - destruct rest as [|c rest]; [reflexivity|]. subst t1. rewrite (feedback_moved k config a1 a2). fold t2.
    assert (FC := feedback_pos t2 (fold_left (feedback t2) m s) c). assert (P := emitted_pos c []). cbn [emitted] in P.
    rewrite (IH f2) by lia. reflexivity.
Qed.

Lemma C89_lemma_past : forall config old recent data limit refs refs' runs pos,
  with_sixteen (old ++ recent) data limit = Ok refs -> with_sixteen recent data limit = Ok refs' ->
  32768 < N.of_nat pos -> (pos < List.length (recent ++ data))%nat ->
  sc_codes (mkTechnique config refs) (mkScanner (moved (List.length old) runs) (List.length old + pos))
  = sc_codes (mkTechnique config refs') (mkScanner runs pos).
Proof.
  intros config old recent data limit refs refs' runs pos E1 E2 HP LP.
  destruct (with_sixteen_ok (old ++ recent) data limit) as (a1 & E1' & R1 & L1 & _). destruct (with_sixteen_ok recent data limit) as (a2 & E2' & R2 & L2 & _).
  rewrite E1 in E1'. injection E1' as <-. rewrite E2 in E2'. injection E2' as <-.
  apply (guess_moved (List.length old) ((old ++ recent) ++ data) (recent ++ data)); auto; [congruence|].
  intros i _. rewrite <- app_assoc, nth_error_app2 by lia. f_equal. lia.
Qed.

Lemma C89_lemma_past_trace : forall config old recent data limit refs refs' codes, bytes_ok recent -> bytes_ok data ->
  with_sixteen (old ++ recent) data limit = Ok refs -> with_sixteen recent data limit = Ok refs' ->
  32768 < N.of_nat (List.length recent) ->
  trace codes (mkTechnique config refs) = trace codes (mkTechnique config refs').
Proof.
  intros config old recent data limit refs refs' codes B1 B2 E1 E2 HP.
  destruct (with_sixteen_ok (old ++ recent) data limit) as (a1 & E1' & R1 & L1 & P1 & D1). destruct (with_sixteen_ok recent data limit) as (a2 & E2' & R2 & L2 & P2 & D2).
  rewrite E1 in E1'. injection E1' as <-. rewrite E2 in E2'. injection E2' as <-. unfold trace.
  replace (scanner (mkTechnique config refs)) with (scan_at (List.length old) (scanner (mkTechnique config refs'))).
  2: { unfold scanner, scan_at. cbn [t_refs sc_obscured sc_pos moved map]. now rewrite P1, P2, app_length. }
  assert (SP : sc_pos (scanner (mkTechnique config refs')) = List.length recent) by (unfold scanner; cbn [t_refs sc_pos]; now rewrite P2).
  apply (trace_moved _ config ((old ++ recent) ++ data) (recent ++ data)); auto.
  - congruence.
  - now apply Forall_app.
  - intro i. rewrite <- app_assoc, nth_error_app2 by lia. f_equal. lia.
  - rewrite !app_length. lia.
  - unfold sc_data_len. cbn [t_refs]. rewrite (ar_len _ _ R1), SP, !app_length. lia.
  - unfold sc_data_len. cbn [t_refs]. rewrite (ar_len _ _ R2), SP, !app_length. lia.
  - now rewrite SP.
Qed.

(** With only the last 32768 bytes a greedy technique can differ in the first hint only. *)
Lemma greedy_one t s : cfg_lookahead (t_config t) = LGreedy -> forall g, sc_codes t s = Ok g -> exists c, g = [c].
Proof.
  intros EG g. unfold sc_codes. rewrite EG. cbn [lookahead]. unfold la_greedy. destruct (best_candidate _ _ _); cbn [obind]; intro E; try discriminate E.
  injection E as <-. eauto.
Qed.

Lemma trace_loop_first f w t s c codes : cfg_lookahead (t_config t) = LGreedy -> refs_of w (t_refs t) -> bytes_ok w -> (sc_pos s < List.length w)%nat ->
  exists h, trace_loop (S f) t s (c :: codes) = (more <-? trace_loop f t (feedback t s c) codes ;; Ok (h :: more)) .
Proof.
  intros EG R HB LP. cbn [trace_loop]. rewrite (more_data_spec w) by assumption. destruct (Nat.ltb_spec (sc_pos s) (List.length w)); [|lia].
  destruct (guess_ok w t (cfg_lookahead (t_config t)) (sc_obscured s) (sc_pos s) R HB LP) as (g & n & EQ & NE & _). fold (sc_codes t s) in EQ.
  destruct (greedy_one _ _ EG _ EQ) as (x & ->). rewrite EQ. cbn [obind shared_prefix]. destruct (Code_eqb c x) eqn:EC.
  - apply Code_eqb_spec in EC. subst x. cbn [List.length Nat.eqb fold_left map app]. eexists. reflexivity.
  - cbn [List.length Nat.eqb fold_left map app]. eexists. reflexivity.
Qed.

Lemma C89_lemma_past_rest : forall config old recent data limit refs refs' codes hints hints', bytes_ok old -> bytes_ok recent -> bytes_ok data ->
  with_sixteen (old ++ recent) data limit = Ok refs -> with_sixteen recent data limit = Ok refs' ->
  32768 <= N.of_nat (List.length recent) -> cfg_lookahead config = LGreedy ->
  trace codes (mkTechnique config refs) = Ok hints -> trace codes (mkTechnique config refs') = Ok hints' ->
  tl hints = tl hints'.
Proof.
  intros config old recent data limit refs refs' codes hints hints' B0 B1 B2 E1 E2 HP EG T1 T2.
  destruct (with_sixteen_ok (old ++ recent) data limit) as (a1 & E1' & R1 & L1 & P1 & D1). destruct (with_sixteen_ok recent data limit) as (a2 & E2' & R2 & L2 & P2 & D2).
  rewrite E1 in E1'. injection E1' as <-. rewrite E2 in E2'. injection E2' as <-. unfold trace in T1, T2.
  assert (HB1 : bytes_ok ((old ++ recent) ++ data)) by (apply Forall_app; split; [now apply Forall_app|assumption]).
  assert (HB2 : bytes_ok (recent ++ data)) by now apply Forall_app.
  assert (SP : sc_pos (scanner (mkTechnique config refs')) = List.length recent) by (unfold scanner; cbn [t_refs sc_pos]; now rewrite P2).
  assert (SP1 : sc_pos (scanner (mkTechnique config refs)) = List.length (old ++ recent)) by (unfold scanner; cbn [t_refs sc_pos]; now rewrite P1).
  destruct data as [|d data].
  { rewrite app_nil_r in R1, R2. cbn [trace_loop] in T1, T2. rewrite (more_data_spec _ (mkTechnique config refs) _ R1), SP1, Nat.ltb_irrefl in T1.
    rewrite (more_data_spec _ (mkTechnique config refs') _ R2), SP, Nat.ltb_irrefl in T2. now injection T1 as <-; injection T2 as <-. }
  destruct codes as [|c codes].
  { exfalso. revert T2. cbn [trace_loop]. rewrite (more_data_spec _ (mkTechnique config refs') _ R2), SP.
    destruct (Nat.ltb_spec (List.length recent) (List.length (recent ++ d :: data))) as [LP|LP]; [|rewrite app_length in LP; cbn [List.length] in LP; lia].
    rewrite <- SP in LP. destruct (guess_ok _ (mkTechnique config refs') (cfg_lookahead config) (sc_obscured (scanner (mkTechnique config refs'))) _ R2 HB2 LP) as (g & n & EQ & NE & _).
    unfold sc_codes. cbn [t_config]. rewrite EQ. cbn [obind]. destruct g as [|g0 g]; [now elim NE|]. cbn [shared_prefix]. cbn [List.length Nat.eqb]. discriminate. }
  destruct (trace_loop_first (sc_data_len (mkTechnique config refs)) _ (mkTechnique config refs) (scanner (mkTechnique config refs)) c codes EG R1 HB1) as (h1 & H1).
  { rewrite SP1, app_length with (l' := d :: data). cbn [List.length]. lia. }
  rewrite H1 in T1. destruct (trace_loop_first (sc_data_len (mkTechnique config refs')) _ (mkTechnique config refs') (scanner (mkTechnique config refs')) c codes EG R2 HB2) as (h2 & H2).
  { rewrite SP, app_length. cbn [List.length]. lia. }
  rewrite H2 in T2. clear H1 H2.
  replace (feedback (mkTechnique config refs) (scanner (mkTechnique config refs)) c) with (scan_at (List.length old) (feedback (mkTechnique config refs') (scanner (mkTechnique config refs')) c)) in T1.
  2: { rewrite <- (feedback_moved _ config refs). f_equal. unfold scanner, scan_at. cbn [t_refs sc_obscured sc_pos moved map]. now rewrite P1, P2, app_length. }
  assert (FP := feedback_pos (mkTechnique config refs') (scanner (mkTechnique config refs')) c). rewrite SP in FP.
  assert (PC := emitted_pos c []). cbn [emitted] in PC.
  rewrite (trace_moved _ config ((old ++ recent) ++ d :: data) (recent ++ d :: data) refs refs') with (f2 := sc_data_len (mkTechnique config refs')) in T1; auto.
  - destruct (trace_loop _ _ _ codes); cbn [obind] in T1, T2; try discriminate T1. injection T1 as <-. injection T2 as <-. reflexivity.
  - congruence.
  - intro i. rewrite <- app_assoc, nth_error_app2 by lia. f_equal. lia.
  - rewrite !app_length. lia.
  - unfold sc_data_len. cbn [t_refs]. rewrite (ar_len _ _ R1), FP, !app_length. cbn [List.length]. lia.
  - unfold sc_data_len. cbn [t_refs]. rewrite (ar_len _ _ R2), FP, !app_length. cbn [List.length]. lia.
  - rewrite FP. lia.
Qed.

(** ** What comes later *)
Lemma moved_0 runs : moved 0 runs = runs.
Proof. unfold moved. induction runs as [|[a b] runs IH]; [reflexivity|]. cbn [map fst snd]. rewrite IH. reflexivity. Qed.

Lemma C89_lemma_future : forall config preroll data more more' limit refs refs' runs pos,
  with_sixteen preroll (data ++ more) limit = Ok refs -> with_sixteen preroll (data ++ more') limit = Ok refs' ->
  (pos + reach (cfg_lookahead config) <= List.length (preroll ++ data))%nat ->
  sc_codes (mkTechnique config refs) (mkScanner runs pos) = sc_codes (mkTechnique config refs') (mkScanner runs pos).
Proof.
  intros config preroll data more more' limit refs refs' runs pos E1 E2 HP.
  destruct (with_sixteen_ok preroll (data ++ more) limit) as (a1 & E1' & R1 & L1 & _). destruct (with_sixteen_ok preroll (data ++ more') limit) as (a2 & E2' & R2 & L2 & _).
  rewrite E1 in E1'. injection E1' as <-. rewrite E2 in E2'. injection E2' as <-. rewrite app_assoc in R1, R2.
  assert (RG : (258 <= reach (cfg_lookahead config))%nat) by (destruct (cfg_lookahead config); cbn [reach]; lia).
  rewrite <- (moved_0 runs) at 1. change pos with (0 + pos)%nat at 1.
  apply (guess_moved 0 ((preroll ++ data) ++ more) ((preroll ++ data) ++ more')); auto; [congruence| |].
  - intros i Hi. cbn [Nat.add]. now rewrite (nth_error_app1 (preroll ++ data) more), (nth_error_app1 (preroll ++ data) more') by lia.
  - rewrite app_length. lia.
Qed.

Lemma shared_prefix_app g : forall codes,
  (exists m c, codes = m ++ c /\ (c <> [] \/ m = g) /\ forall rest, shared_prefix g (codes ++ rest) = (m, c ++ rest))
  \/ (exists g', g = codes ++ g' /\ forall rest, exists m r, shared_prefix g (codes ++ rest) = (codes ++ m, r)).
Proof.
  induction g as [|x g IH]; intro codes.
  - left. exists [], codes. auto.
  - destruct codes as [|y codes]; [right; exists (x :: g); split; [reflexivity|]; intro rest; cbn [app]; destruct (shared_prefix (x :: g) rest); eauto|].
    destruct (Code_eqb y x) eqn:EQ.
    + apply Code_eqb_spec in EQ. subst y. assert (XX : Code_eqb x x = true) by now apply Code_eqb_spec. destruct (IH codes) as [(m & c & -> & HC & HS)|(g' & -> & HS)].
      * left. exists (x :: m), c. split; [reflexivity|]. split; [destruct HC as [HC| ->]; auto|]. intro rest. specialize (HS rest).
        cbn [app shared_prefix]. rewrite XX, HS. reflexivity.
      * right. exists g'. split; [reflexivity|]. intro rest. destruct (HS rest) as (m & r & E). exists m, r. cbn [app shared_prefix]. rewrite XX, E. reflexivity.
    + left. exists [], (y :: codes). split; [reflexivity|]. split; [left; discriminate|]. intro rest. cbn [app shared_prefix]. now rewrite EQ.
Qed.

Lemma code_len_emitted c : code_len c = N.to_nat (emitted_bytes c).
Proof. destruct c; [reflexivity|]. cbn [code_len emitted_bytes]. unfold ref_len, r_run. lia. Qed.
Lemma codes_len_emitted cs : codes_len cs = emitted cs.
Proof. unfold codes_len. induction cs as [|c cs IH]; [reflexivity|]. cbn [map list_sum fold_right emitted]. fold (list_sum (map code_len cs)). now rewrite IH, code_len_emitted. Qed.

Section Later.
  Context (hi : nat) (w1 w2 : list N) (config : Config) (a1 a2 : AllRefs).
  Context (R1 : refs_of w1 a1) (R2 : refs_of w2 a2) (EL : ar_limit a1 = ar_limit a2) (HB : bytes_ok w2) (A : agree 0 hi w1 w2)
    (H1 : (hi <= List.length w1)%nat) (H2 : (hi <= List.length w2)%nat).
  Let t1 := mkTechnique config a1.
  Let t2 := mkTechnique config a2.

  Lemma trace_later : forall f1 f2 s codes rest1 rest2 h1 h2, (sc_pos s + emitted codes + reach (cfg_lookahead config) <= hi)%nat ->
    trace_loop f1 t1 s (codes ++ rest1) = Ok h1 -> trace_loop f2 t2 s (codes ++ rest2) = Ok h2 -> firstn (List.length codes) h1 = firstn (List.length codes) h2.
  Proof.
    induction f1 as [|f1 IH]; intros f2 s codes rest1 rest2 h1 h2 HP T1 T2; [discriminate T1|]. destruct f2 as [|f2]; [discriminate T2|].
    destruct codes as [|c0 codes0]; [reflexivity|]. remember (c0 :: codes0) as codes eqn:EC. assert (PC : (1 <= emitted codes)%nat) by (rewrite EC; apply emitted_pos).
    assert (RG : (258 <= reach (cfg_lookahead config))%nat) by (destruct (cfg_lookahead config); cbn [reach]; lia).
    cbn [trace_loop] in T1, T2. rewrite (more_data_spec w1 t1) in T1 by assumption. rewrite (more_data_spec w2 t2) in T2 by assumption.
    destruct (Nat.ltb_spec (sc_pos s) (List.length w1)); [|lia]. destruct (Nat.ltb_spec (sc_pos s) (List.length w2)) as [LP|]; [|lia].
    assert (EG : sc_codes t1 s = sc_codes t2 s).
    { destruct s as [runs pos]. cbn [sc_pos] in *. rewrite <- (moved_0 runs) at 1. change pos with (0 + pos)%nat at 1. unfold t1, t2.
      apply (guess_moved 0 w1 w2); auto. apply (agree_less _ _ _ _ _ A). lia. }
    rewrite EG in T1.
    destruct (guess_ok w2 t2 (cfg_lookahead config) (sc_obscured s) (sc_pos s) R2 HB LP) as (g & n & EQ & NE & _). fold (sc_codes t2 s) in EQ.
    change (sc_codes t2 s = Ok g) in EQ. rewrite EQ in T1, T2. cbn [obind] in T1, T2. destruct g as [|g0 g]; [now elim NE|]. remember (g0 :: g) as gs eqn:EGS.
    destruct (shared_prefix_app gs codes) as [(m & c & ES & HC & HS)|(g' & ES & HS)].
    - rewrite HS in T1, T2. assert (FB : fold_left (feedback t1) m s = fold_left (feedback t2) m s) by (clear; revert s; induction m as [|x m IH]; intro s; cbn [fold_left]; [reflexivity|]; apply IH).
      rewrite FB in T1. assert (FP := feedback_fold_pos t2 m s).
      rewrite ES, app_length. assert (EM : emitted codes = (emitted m + emitted c)%nat) by now rewrite ES, emitted_app.
      assert (CL : List.length m = List.length (map (fun _ => Correct) m)) by now rewrite map_length.
      destruct (Nat.eqb _ _) eqn:EE.
      + destruct (trace_loop f1 _ _ _) as [m1| | |] eqn:X1; try discriminate T1. destruct (trace_loop f2 _ _ _) as [m2| | |] eqn:X2; try discriminate T2.
        cbn [obind] in T1, T2. injection T1 as <-. injection T2 as <-. rewrite CL, !firstn_app_2. f_equal.
        refine (IH f2 _ c rest1 rest2 m1 m2 _ X1 X2). lia.
      + destruct c as [|x c]; [destruct HC as [HC| ->]; [now elim HC|rewrite Nat.eqb_refl in EE; discriminate EE]|]. cbn [app] in T1, T2.
        destruct (trace_loop f1 _ _ _) as [m1| | |] eqn:X1; try discriminate T1. destruct (trace_loop f2 _ _ _) as [m2| | |] eqn:X2; try discriminate T2.
        cbn [obind] in T1, T2. injection T1 as <-. injection T2 as <-. rewrite CL, !firstn_app_2. f_equal. cbn [List.length firstn]. f_equal.
        refine (IH f2 _ c rest1 rest2 m1 m2 _ X1 X2). rewrite feedback_pos, FP. cbn [emitted] in EM. lia.
    - assert (Z : forall m (h more : list Trace), map (fun _ => Correct) (codes ++ m) ++ more = h -> firstn (List.length codes) h = map (fun _ => Correct) codes).
      { intros m h more <-. rewrite map_app, <- app_assoc. replace (List.length codes) with (List.length (map (fun _ : Code => Correct) codes)) by apply map_length.
        rewrite firstn_app, Nat.sub_diag, firstn_O, app_nil_r. apply firstn_all. }
      destruct (HS rest1) as (m1 & r1 & S1). rewrite S1 in T1. destruct (HS rest2) as (m2 & r2 & S2). rewrite S2 in T2.
      assert (Z1 : firstn (List.length codes) h1 = map (fun _ => Correct) codes).
      { destruct (Nat.eqb (List.length (codes ++ m1)) (List.length gs)); [|destruct r1 as [|x1 r1]; [discriminate T1|]]; destruct (trace_loop f1 _ _ _); try discriminate T1; cbn [obind] in T1; injection T1 as T1; exact (Z _ _ _ T1). }
      assert (Z2 : firstn (List.length codes) h2 = map (fun _ => Correct) codes).
      { destruct (Nat.eqb (List.length (codes ++ m2)) (List.length gs)); [|destruct r2 as [|x2 r2]; [discriminate T2|]]; destruct (trace_loop f2 _ _ _); try discriminate T2; cbn [obind] in T2; injection T2 as T2; exact (Z _ _ _ T2). }
      now rewrite Z1, Z2.
  Qed.
End Later.

Lemma C89_lemma_future_trace : forall config preroll data more more' limit refs refs' codes rest rest' hints hints',
  bytes_ok preroll -> bytes_ok (data ++ more') ->
  with_sixteen preroll (data ++ more) limit = Ok refs -> with_sixteen preroll (data ++ more') limit = Ok refs' ->
  (codes_len codes + reach (cfg_lookahead config) <= List.length data)%nat ->
  trace (codes ++ rest) (mkTechnique config refs) = Ok hints -> trace (codes ++ rest') (mkTechnique config refs') = Ok hints' ->
  firstn (List.length codes) hints = firstn (List.length codes) hints'.
Proof.
  intros config preroll data more more' limit refs refs' codes rest rest' hints hints' B1 B2 E1 E2 HP T1 T2.
  destruct (with_sixteen_ok preroll (data ++ more) limit) as (a1 & E1' & R1 & L1 & P1 & _). destruct (with_sixteen_ok preroll (data ++ more') limit) as (a2 & E2' & R2 & L2 & P2 & _).
  rewrite E1 in E1'. injection E1' as <-. rewrite E2 in E2'. injection E2' as <-.
  assert (HB : bytes_ok (preroll ++ data ++ more')) by now apply Forall_app. rewrite app_assoc in R1, R2, HB. rewrite codes_len_emitted in HP.
  unfold trace in T1, T2. replace (scanner (mkTechnique config refs)) with (scanner (mkTechnique config refs')) in T1 by (unfold scanner; cbn [t_refs]; now rewrite P1, P2).
  refine (trace_later (List.length (preroll ++ data)) _ _ config refs refs' R1 R2 _ HB _ _ _ _ _ _ codes rest rest' hints hints' _ T1 T2).
  - congruence.
  - intros i Hi. cbn [Nat.add]. now rewrite (nth_error_app1 (preroll ++ data) more), (nth_error_app1 (preroll ++ data) more') by lia.
  - rewrite app_length with (l' := more). lia.
  - rewrite app_length with (l' := more'). lia.
  - unfold scanner. cbn [t_refs sc_pos]. rewrite P2, app_length. lia.
Qed.

(** ** The last 32768 bytes are not quite enough *)
Lemma greedy_at config w a pos : refs_of w a -> cfg_lookahead config = LGreedy -> cfg_picker config = Longest -> (pos + 2 < List.length w)%nat ->
  exists refs, ar_at a pos [] = Ok (Some refs) /\ Forall (good_ref w pos) refs
    /\ sc_codes (mkTechnique config a) (mkScanner [] pos)
       = Ok [match capped_max_by r_run (quit_search_above_length (cfg_wams config)) (firstn (limit_count_of_distances (cfg_wams config)) refs) with
             | Some r => Reference r | None => Literal (nth pos w 0) end].
Proof.
  intros R EG EP LP. assert (X := ar_at_ok _ _ pos [] R). destruct (Nat.ltb_spec (pos + 2) (List.length w)); [|lia]. destruct X as (refs & E & _ & G).
  exists refs. split; [exact E|]. split; [exact G|]. unfold sc_codes. cbn [t_config sc_obscured sc_pos]. rewrite EG. cbn [lookahead].
  unfold la_greedy, best_candidate, best_candidate_better_than. cbn [t_refs t_config]. rewrite (ar_get_ok w) by (auto; lia). cbn [obind search_limit]. rewrite E. cbn [obind].
  rewrite EP. cbn [picker]. unfold longest. destruct (capped_max_by _ _ _); reflexivity.
Qed.

Section Far.
  Context (zeros : list N) (LZ : N.of_nat (List.length zeros) = 32765) (AZ : Forall (eq 0) zeros).
  Let recent := [1; 2; 3] ++ zeros.

  Lemma in_zeros q tail : nth_error (zeros ++ tail) q = Some 1 -> (List.length zeros <= q)%nat.
  Proof.
    intro E. destruct (le_lt_dec (List.length zeros) q); [assumption|]. rewrite nth_error_app1 in E by assumption. apply nth_error_In in E.
    rewrite Forall_forall in AZ. apply AZ in E. discriminate E.
  Qed.

  Lemma three_123 w q : three w q = [1; 2; 3] -> nth_error w q = Some 1.
  Proof.
    rewrite three_nth. destruct (nth_error w q); [|discriminate]. destruct (nth_error w (q + 1)); [|discriminate]. destruct (nth_error w (q + 2)); [|discriminate]. now intros [= ->].
  Qed.
  Lemma three_at p w : three (p ++ [1; 2; 3] ++ w) (List.length p) = [1; 2; 3].
  Proof. unfold three. rewrite skipn_app, skipn_all, Nat.sub_diag. reflexivity. Qed.

  Lemma far_recent config refs : with_sixteen recent [1; 2; 3] 65535 = Ok refs -> cfg_lookahead config = LGreedy -> cfg_picker config = Longest ->
    sc_codes (mkTechnique config refs) (scanner (mkTechnique config refs)) = Ok [Literal 1].
  Proof.
    intros E EG EP. destruct (with_sixteen_ok recent [1; 2; 3] 65535) as (a & E' & R & _ & P & _). rewrite E in E'. injection E' as <-.
    unfold scanner. cbn [t_refs]. rewrite P. assert (LR : List.length recent = N.to_nat 32768) by (unfold recent; rewrite app_length; cbn [List.length]; lia).
    assert (LW : List.length (recent ++ [1; 2; 3]) = N.to_nat 32771) by (rewrite app_length, LR; cbn [List.length]; lia).
    destruct (greedy_at config _ _ (List.length recent) R EG EP) as (found & EA & _ & ES); [lia|]. rewrite ES.
    assert (EF : found = []).
    { destruct found as [|r found]; [reflexivity|exfalso].
      destruct (C34_lemma recent [1; 2; 3] 65535 refs _ _ _ E EA) as [HD _].
      assert (X := fun q => proj1 (C34_lemma_all recent [1; 2; 3] 65535 refs _ _ _ q E EA ltac:(lia))).
      assert (I : In (r_dist r) (map r_dist (r :: found))) by now left. rewrite HD in I. apply in_map_iff in I. destruct I as (q & EQ & IQ). apply candidates_in in IQ.
      destruct (X q) as (Q1 & _ & _ & Q2); [exists r; split; [now left|lia]|].
      assert (T := three_at recent []). cbn [app] in T. rewrite T in Q2. apply three_123 in Q2. unfold recent in Q2. rewrite <- app_assoc in Q2.
      destruct q as [|[|[|q]]]; [lia|discriminate Q2|discriminate Q2|]. cbn [app nth_error] in Q2. apply in_zeros in Q2. lia. }
    rewrite EF, firstn_nil. cbn [capped_max_by]. rewrite app_nth2, Nat.sub_diag by lia. reflexivity.
  Qed.

  Lemma far_old config refs : with_sixteen ([9] ++ recent) [1; 2; 3] 65535 = Ok refs -> cfg_lookahead config = LGreedy -> cfg_picker config = Longest ->
    limit_count_of_distances (cfg_wams config) <> 0%nat ->
    sc_codes (mkTechnique config refs) (scanner (mkTechnique config refs)) = Ok [Reference (mkRef 32768 0)].
  Proof.
    intros E EG EP NL. destruct (with_sixteen_ok ([9] ++ recent) [1; 2; 3] 65535) as (a & E' & R & _ & P & _). rewrite E in E'. injection E' as <-.
    unfold scanner. cbn [t_refs]. rewrite P. assert (LR : List.length ([9] ++ recent) = N.to_nat 32769) by (unfold recent; rewrite !app_length; cbn [List.length]; lia).
    assert (LW : List.length (([9] ++ recent) ++ [1; 2; 3]) = N.to_nat 32772) by (rewrite app_length, LR; cbn [List.length]; lia).
    destruct (greedy_at config _ _ (List.length ([9] ++ recent)) R EG EP) as (found & EA & G & ES); [lia|]. rewrite ES.
    destruct (C34_lemma ([9] ++ recent) [1; 2; 3] 65535 refs _ _ _ E EA) as [HD _].
    assert (X := fun q => C34_lemma_all ([9] ++ recent) [1; 2; 3] 65535 refs _ _ _ q E EA ltac:(lia)).
    assert (T := three_at ([9] ++ recent) []). cbn [app] in T.
    assert (ALL : Forall (eq (mkRef 32768 0)) found).
    { rewrite Forall_forall in G |- *. intros r IR. destruct (G r IR) as (RO & _ & LM).
      assert (I : In (r_dist r) (map r_dist found)) by now apply in_map. rewrite HD in I. apply in_map_iff in I. destruct I as (q & EQ & IQ). apply candidates_in in IQ.
      destruct (proj1 (X q)) as (Q1 & _ & _ & Q2); [exists r; split; [assumption|lia]|]. cbn [app] in Q2. rewrite T in Q2. apply three_123 in Q2.
      unfold recent in Q2. rewrite <- app_assoc in Q2. destruct q as [|[|[|[|q]]]]; [lia| |discriminate Q2|discriminate Q2|cbn [app nth_error] in Q2; apply in_zeros in Q2; lia].
      destruct LM as (_ & LM & _). destruct r as [d l]. unfold ref_ok, ref_len in *. cbn [r_dist r_run_minus_3] in *. f_equal; lia. }
    assert (NE : found <> []).
    { destruct (proj2 (X 1%nat)) as (r & IR & _).
      - split; [lia|]. split; [lia|]. split; [reflexivity|]. cbn [app]. rewrite T. unfold recent. rewrite three_nth. reflexivity.
      - intros ->. contradiction. }
    destruct found as [|r found]; [now elim NE|]. destruct (limit_count_of_distances (cfg_wams config)) as [|n]; [now elim NL|]. cbn [firstn].
    assert (CS := capped_spec r_run (quit_search_above_length (cfg_wams config)) (r :: firstn n found)). destruct (capped_max_by _ _ _) as [x|]; [|discriminate CS].
    apply first_best_in in CS. assert (IX : In x (r :: found)) by (destruct CS as [->|CS]; [now left|right; now apply firstn_In in CS]).
    rewrite Forall_forall in ALL. now rewrite <- (ALL x IX).
  Qed.
End Far.

Lemma C89_lemma_refuted : exists config old recent data limit refs refs',
  bytes_ok (old ++ recent ++ data) /\ N.of_nat (List.length recent) = 32768 /\ Config_gzip 1 = Ok config
  /\ with_sixteen (old ++ recent) data limit = Ok refs /\ with_sixteen recent data limit = Ok refs'
  /\ sc_codes (mkTechnique config refs) (scanner (mkTechnique config refs)) = Ok [Reference (mkRef 32768 0)]
  /\ sc_codes (mkTechnique config refs') (scanner (mkTechnique config refs')) = Ok [Literal 1].
Proof.
  set (zeros := repeat 0 (N.to_nat 32765)).
  assert (LZ : N.of_nat (List.length zeros) = 32765) by (unfold zeros; rewrite repeat_length; lia).
  assert (AZ : Forall (eq 0) zeros) by (unfold zeros; generalize (N.to_nat 32765); clear; induction n; constructor; auto).
  clearbody zeros. set (recent := [1; 2; 3] ++ zeros).
  destruct (with_sixteen_ok ([9] ++ recent) [1; 2; 3] 65535) as (a1 & E1 & _). destruct (with_sixteen_ok recent [1; 2; 3] 65535) as (a2 & E2 & _).
  eexists _, [9], recent, [1; 2; 3], 65535, a1, a2. split; [|split; [|split; [reflexivity|]]].
  - assert (BZ : bytes_ok zeros) by (revert AZ; apply Forall_impl; intros x <-; reflexivity).
    unfold recent, bytes_ok. repeat (apply Forall_app; split); auto; repeat constructor.
  - unfold recent. rewrite app_length. cbn [List.length]. lia.
  - split; [exact E1|]. split; [exact E2|]. split; [now apply (far_old zeros LZ AZ)|now apply (far_recent zeros LZ AZ)].
Qed.
