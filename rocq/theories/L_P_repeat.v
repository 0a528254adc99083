(** Proofs of C101. *)
From Verif Require Import Base M_bit M_lib M_circles M_gzip M_parse M_serialise M_all_refs M_technique M_trace Spec Spec_encoder M_rezippers Clients Clients_members Clients_encoder Clients_compress Clients_repeat
  L_bits L_ring L_ser L_parse L_P_parse L_search L_P_search L_tech L_P_tech L_trace L_strace L_P_trace L_P_ser2 L_P_rez L_P_reach L_P_harness L_P_members L_P_encoder L_P_exact L_level L_P_levels L_P_compress L_P_local.
From Coq Require Import ZArith ZifyBool ZifyNat ZifyN Sorting.Sorted.
Ltac Zify.zify_post_hook ::= Z.div_mod_to_equations.
Local Open Scope N_scope.
Local Open Scope model_scope.

(** ** Candidates with nothing hidden *)
Lemma skipn_nth {A} : forall a (w : list A), skipn a w = match nth_error w a with Some x => x :: skipn (S a) w | None => [] end.
Proof.
  induction a as [|a IH]; intros [|y w]; [reflexivity..|]. cbn [skipn nth_error]. rewrite IH. destruct (nth_error w a); reflexivity.
Qed.
Lemma cut_eq {A} k : forall a b (w : list A), firstn k (skipn a w) = firstn k (skipn b w) <-> forall i, (i < k)%nat -> nth_error w (a + i) = nth_error w (b + i).
Proof.
  induction k as [|k IH]; intros a b w; [split; [lia|reflexivity]|]. rewrite (skipn_nth a w), (skipn_nth b w). split.
  - intros E i Hi. assert (E0 : nth_error w a = nth_error w b).
    { destruct (nth_error w a), (nth_error w b); cbn [firstn] in E; try discriminate; [injection E; congruence|reflexivity]. }
    destruct i as [|i]; [now rewrite !Nat.add_0_r|].
    destruct (nth_error w a) eqn:Ea, (nth_error w b) eqn:Eb; cbn [firstn] in E; try discriminate.
    + apply (f_equal (@tl A)) in E. cbn [tl] in E. apply (IH (S a) (S b)) with (i := i) in E; [|lia]. now rewrite !Nat.add_succ_r, <- !Nat.add_succ_l.
    + apply nth_error_None in Ea, Eb. rewrite !(proj2 (nth_error_None w _)); [reflexivity|lia|lia].
  - intro H. assert (E0 := H 0%nat ltac:(lia)). rewrite !Nat.add_0_r in E0. rewrite E0. destruct (nth_error w b); [|reflexivity]. cbn [firstn]. f_equal.
    apply (IH (S a) (S b)). intros i Hi. rewrite !Nat.add_succ_l, <- !Nat.add_succ_r. apply H. lia.
Qed.

Lemma cut_length (w : list N) k q pos : (q < pos)%nat -> (pos < List.length w)%nat -> firstn k (skipn q w) = firstn k (skipn pos w) -> (pos + k <= List.length w)%nat.
Proof.
  intros H HP E. apply (f_equal (@List.length N)) in E. rewrite !firstn_length, !skipn_length in E. lia.
Qed.
Lemma three_hash w a b : three w a = three w b -> hash3 w a = hash3 w b.
Proof.
  intro E. unfold three in E. rewrite cut_eq in E. unfold hash3. assert (X : forall i, (i < 3)%nat -> nth (a + i) w 0 = nth (b + i) w 0) by (intros i Hi; now apply nth_of_error, E).
  assert (X0 := X 0%nat ltac:(lia)). rewrite !Nat.add_0_r in X0. now rewrite X0, (X 1%nat), (X 2%nat) by lia.
Qed.

Lemma candidates_earlier w pos n : 32768 <= N.of_nat n -> (pos <= List.length w)%nat -> candidates w n [] pos = earlier w pos.
Proof.
  intros HN HP. rewrite (candidates_wide w [] pos n (Nat.max n pos)) by lia. unfold candidates, earlier.
  rewrite firstn_all2.
  2: { transitivity (List.length (rev (seq 1 (pos - 1)))); [|rewrite rev_length, seq_length; lia]. generalize (rev (seq 1 (pos - 1))). intro l.
       induction l as [|x l IH]; cbn [filter List.length]; [lia|]. destruct (_ && _); cbn [List.length]; lia. }
  rewrite filter_filter. apply filter_ext. intro q. change (hidden [] q) with false. destruct (list_eq_dec _ _ _) as [E|]; [|now rewrite !andb_false_r].
  rewrite (three_hash _ _ _ E), N.eqb_refl. reflexivity.
Qed.

Lemma earlier_in w pos q : In q (earlier w pos) <-> (1 <= q < pos)%nat /\ (pos <= q + N.to_nat 32768)%nat /\ three w q = three w pos.
Proof.
  unfold earlier. rewrite filter_In, <- in_rev, in_seq, andb_true_iff. destruct (list_eq_dec _ _ _) as [E|E].
  - rewrite N.leb_le. split; intro H; repeat split; try easy; lia.
  - split; [intros (_ & _ & X); discriminate|intros (_ & _ & X); contradiction].
Qed.
Lemma earlier_desc w pos : StronglySorted gt (earlier w pos).
Proof. unfold earlier. apply desc_filter, desc_seq. Qed.

(** A match of exactly three bytes. *)
Lemma long_four w pos q n : (q < pos)%nat -> (pos < List.length w)%nat -> three w q = three w pos -> longest_match w pos (pos - q) n -> (3 <= n)%nat ->
  ((4 <= n)%nat <-> firstn 4 (skipn q w) = firstn 4 (skipn pos w)).
Proof.
  intros HQ HP H3 (L1 & L2 & L3 & L4) HN. split.
  - intro H. apply cut_eq. intros i Hi. rewrite (L3 i) by lia. f_equal. lia.
  - intro E. assert (HL := cut_length _ _ _ _ HQ HP E). rewrite cut_eq in E. destruct (Nat.eq_dec n 3) as [->|]; [|lia].
    destruct L4 as [L4|[L4|L4]]; [lia|lia|]. exfalso. apply L4. rewrite <- (E 3%nat) by lia. f_equal. lia.
Qed.

Lemma forall2_in_r {A B} (P : A -> B -> Prop) l l' : Forall2 P l l' -> forall y, In y l' -> exists x, In x l /\ P x y.
Proof. induction 1 as [|x y l l' H F IH]; intros z []; [subst; exists x; split; [now left|assumption]|]. destruct (IH _ H0) as (x' & ? & ?). exists x'. split; [now right|assumption]. Qed.
Lemma forall2_in_l {A B} (P : A -> B -> Prop) l l' : Forall2 P l l' -> forall x, In x l -> exists y, In y l' /\ P x y.
Proof. induction 1 as [|x y l l' H F IH]; intros z []; [subst; exists y; split; [now left|assumption]|]. destruct (IH _ H0) as (x' & ? & ?). exists x'. split; [now right|assumption]. Qed.

Definition mrel (w : list N) (pos q : nat) (r' : Ref) : Prop := r_dist r' = N.of_nat (pos - q) /\ longest_match w pos (pos - q) (N.to_nat (ref_len r')).

(** Something is found, unless the nearest candidate is far and nothing is longer than three. *)
Lemma found w s runs pos qs : (pos < List.length w)%nat -> 3 < nice s -> firstn (chain s) (candidates w (nearest s) runs pos) = qs ->
  (exists q, In q qs /\ ((pos <= q + 4096)%nat \/ firstn 4 (skipn q w) = firstn 4 (skipn pos w))) -> exists r, match_at w s runs pos r.
Proof.
  intros HP HC EQ (q & HI & HQ). destruct (candidate_refs w (N.of_nat (nearest s)) runs pos HP) as (all & FA). rewrite Nnat.Nat2N.id in FA.
  assert (F := firstn_forall2 _ _ _ FA (chain s)). rewrite EQ in F. set (refs := firstn (chain s) all) in *.
  assert (C := capped_spec ref_len (nice s) refs). destruct (capped_max_by ref_len (nice s) refs) as [x|].
  2: { destruct (forall2_in_l _ _ _ F q HI) as (y & HY & _). rewrite C in HY. destruct HY. }
  exists x. exists refs. split; [now rewrite EQ|]. split; [exact C|]. intros _. destruct (N.ltb_spec 3 (ref_len x)) as [|H3]; [now left|right].
  assert (Hx3 : ref_len x = 3) by (unfold ref_len in *; lia). destruct C as (b & a & E & [(C1 & _)|(C1 & C2 & C3)]); [lia|].
  assert (b = []) as ->. { destruct b as [|y b]; [reflexivity|]. specialize (C2 y (or_introl eq_refl)). unfold ref_len in *. lia. }
  cbn [app] in E. assert (SD := desc_firstn _ (chain s) (candidates_desc w (nearest s) runs pos)). rewrite EQ in SD.
  assert (BL : forall z, In z qs -> (1 <= z < pos)%nat /\ three w z = three w pos).
  { intros z HZ. rewrite <- EQ in HZ. apply firstn_In in HZ. split; [now apply candidates_below in HZ|now apply candidates_three in HZ]. }
  clear EQ. rewrite E in F. inversion F as [|z ? qs' ? (D & M) F' E1]; subst qs. rewrite D. apply StronglySorted_inv in SD. destruct SD as [_ SD]. rewrite Forall_forall in SD.
  assert (HZ := BL z (or_introl eq_refl)).
  destruct HI as [->|HI].
  - destruct HQ as [HQ|HQ]; [lia|]. apply (long_four _ _ _ _ (proj2 (proj1 HZ)) HP (proj2 HZ) M) in HQ; unfold ref_len in *; lia.
  - destruct HQ as [HQ|HQ]; [specialize (SD _ HI); lia|]. exfalso.
    destruct (forall2_in_l _ _ _ F' q HI) as (y' & HY & D' & M'). assert (HB := BL q (or_intror HI)).
    apply (long_four _ _ _ _ (proj2 (proj1 HB)) HP (proj2 HB) M') in HQ; [|unfold ref_len; lia]. specialize (C3 y' HY). lia.
Qed.

Lemma found_only w s runs pos r : (pos < List.length w)%nat -> no_far_threes s = true -> match_at w s runs pos r ->
  exists q, In q (firstn (chain s) (candidates w (nearest s) runs pos)) /\ ((pos <= q + 4096)%nat \/ firstn 4 (skipn q w) = firstn 4 (skipn pos w)).
Proof.
  intros HP HN (refs & F & B & T). specialize (T HN). apply first_best_in in B. destruct (forall2_in_r _ _ _ F r B) as (q & HI & D & M). exists q. split; [exact HI|].
  apply firstn_In in HI. assert (H1 := candidates_below _ _ _ _ _ HI). assert (H2 := candidates_three _ _ _ _ _ HI).
  destruct T as [T|T]; [right|left; lia]. apply (long_four _ _ _ _ (proj2 H1) HP H2 M); unfold ref_len in *; lia.
Qed.

(** ** Levels 4 to 9 *)
Lemma high_level level config : 4 <= level -> Config_gzip level = Ok config ->
  cfg_lookahead config = LGreedy /\ refuses_far_threes (cfg_picker config) = true /\ 3 < quit_search_above_length (cfg_wams config)
  /\ insert_only_below_length (cfg_wams config) = None /\ (1 <= limit_count_of_distances (cfg_wams config))%nat.
Proof.
  intros H4 EC. assert (HL : 1 <= level <= 9).
  { unfold Config_gzip in EC. destruct ((1 <=? level) && (level <=? 9)) eqn:X; [lia|discriminate]. }
  assert (HL' : level = 4 \/ level = 5 \/ level = 6 \/ level = 7 \/ level = 8 \/ level = 9) by lia.
  repeat (destruct HL' as [HL'|HL']; [subst level; injection EC as <-; cbn; repeat split; lia|]). subst level; injection EC as <-; cbn; repeat split; lia.
Qed.
Lemma runs_none codes : forall pos, long_runs None pos codes = [].
Proof. induction codes as [|[b|r] codes IH]; intro pos; cbn [long_runs app]; auto. Qed.

Lemma C101_lemma_literal : forall level config preroll data refs history, 4 <= level -> Config_gzip level = Ok config ->
  with_sixteen preroll data 65535 = Ok refs ->
  let t := mkTechnique config refs in let w := preroll ++ data in let pos := (List.length preroll + codes_len history)%nat in
  (pos < List.length w)%nat ->
  ((exists b, sc_codes t (fold_left (feedback t) history (scanner t)) = Ok [Literal b])
   <-> forall q, In q (firstn (limit_count_of_distances (cfg_wams config)) (earlier w pos)) ->
       (q + 4096 < pos)%nat /\ firstn 4 (skipn q w) <> firstn 4 (skipn pos w)).
Proof.
  intros level config preroll data refs history H4 EC EW t w pos HP. destruct (high_level _ _ H4 EC) as (LG & RF & QU & IB & CH).
  destruct (technique_of config _ _ _ _ EW) as (R & EP & EL & _). fold t w in R, EP, EL.
  assert (ELI : ar_limit refs = 65535).
  { destruct (with_sixteen_ok preroll data 65535) as (a & E' & _ & X & _). rewrite EW in E'. injection E' as <-. exact X. }
  rewrite (feedback_runs t). change (t_config t) with config. rewrite IB, runs_none, EP. cbn [app]. change (sc_obscured (scanner t)) with (@nil (nat * N)). cbn [app]. fold pos.
  destruct (choice_spec w t R [] pos HP) as (codes & E & HC). change (t_config t) with config in E, HC. change (t_refs t) with refs in HC.
  assert (EX : sc_codes t (mkScanner (@nil (nat * N)) pos) = Ok codes) by exact E.  rewrite EX. unfold choice_of, finds, plain_search in HC. rewrite LG, ELI, RF in HC.
  set (s := mkSearch (N.to_nat 65535) (limit_count_of_distances (cfg_wams config)) (quit_search_above_length (cfg_wams config)) true) in HC.
  assert (EQ : firstn (chain s) (candidates w (nearest s) [] pos) = firstn (limit_count_of_distances (cfg_wams config)) (earlier w pos)).
  { unfold s. cbn [chain nearest]. rewrite candidates_earlier by lia. reflexivity. }
  split.
  - intros (b & EB) q HQ. injection EB as ->. inversion HC as [|? NM _]; subst. 
    destruct (le_lt_dec pos (q + 4096)) as [HD|HD].
    + destruct (found w s [] pos _ HP QU EQ) as (r & HR); [exists q; auto|]. exfalso. exact (NM r HR).
    + split; [exact HD|]. intro E4. destruct (found w s [] pos _ HP QU EQ) as (r & HR); [exists q; auto|]. exact (NM r HR).
  - intro H. inversion HC as [r HR|b NM EB]; subst; [exfalso|eauto]. destruct (found_only w s [] pos r HP eq_refl HR) as (q & HI & HX). rewrite EQ in HI.
    destruct (H q HI) as (A & B). destruct HX as [HX|HX]; [lia|contradiction].
Qed.

(** ** A second copy *)
Lemma copy_three before x i : (i + 2 < List.length x)%nat ->
  three ((before ++ x) ++ x) (List.length before + i) = three ((before ++ x) ++ x) (List.length (before ++ x) + i).
Proof.
  intro H. unfold three. apply cut_eq. intros k Hk. rewrite (nth_error_app2 (before ++ x) x (n := List.length (before ++ x) + i + k)) by lia.
  rewrite nth_error_app1 by (rewrite app_length; lia). rewrite nth_error_app2 by lia. f_equal. lia.
Qed.

Lemma codes_len_app a b : codes_len (a ++ b) = (codes_len a + codes_len b)%nat.
Proof. unfold codes_len. now rewrite map_app, list_sum_app. Qed.

Lemma encoder_tail (w : list N) limit (choice : list (nat * N) -> nat -> list Code -> Prop) : forall runs pos codes, (forall runs pos cs, choice runs pos cs -> (pos + 2 >= List.length w)%nat -> exists b, cs = [Literal b]) ->
  encoder w limit choice runs pos codes -> (List.length w <= pos + 2)%nat -> exists tail, codes = map Literal tail /\ (pos + List.length tail = Nat.max pos (List.length w))%nat.
Proof.
  intros runs pos codes HC HE. induction HE as [runs pos HP|runs pos cs more HP C HE IH]; intro HL.
  - exists []. split; [reflexivity|]. cbn [List.length]. lia.
  - destruct (HC _ _ _ C ltac:(lia)) as (b & ->). unfold codes_len in IH. cbn [map list_sum fold_right code_len] in IH. destruct (IH ltac:(lia)) as (tail & -> & E).
    exists (b :: tail). split; [reflexivity|]. cbn [List.length]. lia.
Qed.

(** If every position with two more bytes finds a match, the codes are matches up to the last two bytes. *)
Lemma all_matches (w : list N) limit (inv : list (nat * N) -> nat -> Prop) (find : list (nat * N) -> nat -> Ref -> Prop) runs pos codes :
  (forall runs pos r, find runs pos r -> (pos + 2 < List.length w)%nat /\ (pos + N.to_nat (ref_len r) <= List.length w)%nat) ->
  (forall runs pos, inv runs pos -> (pos + 2 < List.length w)%nat -> exists r, find runs pos r) ->
  (forall runs pos r, inv runs pos -> find runs pos r -> inv (runs ++ long_runs limit pos [Reference r]) (pos + N.to_nat (ref_len r))%nat) ->
  encoder w limit (fun runs => greedy_choice w (find runs)) runs pos codes -> inv runs pos -> (pos <= List.length w)%nat ->
  exists matches tail, codes = map Reference matches ++ map Literal tail /\ (List.length tail <= 2)%nat
    /\ (pos + codes_len (map Reference matches) + List.length tail = List.length w)%nat
    /\ (forall k r, nth_error matches k = Some r -> exists runs', inv runs' (pos + codes_len (map Reference (firstn k matches)))%nat
          /\ find runs' (pos + codes_len (map Reference (firstn k matches)))%nat r).
Proof.
  intros HF HI HN HE. induction HE as [runs pos HP|runs pos cs more HP C HE IH]; intros IV HL.
  - exists [], []. split; [reflexivity|]. cbn. split; [lia|]. split; [lia|]. intros [|k] r E; discriminate E.
  - destruct (le_lt_dec (List.length w) (pos + 2)) as [HT|HT].
    + assert (HE' := encoder_step w limit (fun runs => greedy_choice w (find runs)) runs pos cs more HP C HE).
      apply encoder_tail in HE'; [|intros runs' pos' cs' C' HT'; inversion C' as [r HR|b _ _]; subst; [destruct (HF _ _ _ HR); lia|eauto]|exact HT].
      destruct HE' as (tail & E & EL). exists [], tail. split; [exact E|]. change (codes_len (map Reference [])) with 0%nat. split; [lia|]. split; [lia|]. intros [|k] r Er; discriminate Er.
    + destruct (HI _ _ IV HT) as (r & HR). inversion C as [r' HR'|b NM _]; subst; [|exfalso; exact (NM r HR)].
      destruct (HF _ _ _ HR') as (_ & HB).
      assert (CL : codes_len [Reference r'] = N.to_nat (ref_len r')) by (unfold codes_len; cbn [map list_sum fold_right code_len]; lia). rewrite CL in IH, HE.
      destruct (IH (HN _ _ _ IV HR') ltac:(lia)) as (matches & tail & -> & T2 & T3 & T4). exists (r' :: matches), tail. split; [reflexivity|]. split; [exact T2|].
      change (map Reference (r' :: matches)) with ([Reference r'] ++ map Reference matches). rewrite codes_len_app, CL. split; [lia|].
      intros [|k] r0 E0; cbn [nth_error firstn] in *.
      * injection E0 as <-. exists runs. change (codes_len (map Reference [])) with 0%nat. rewrite Nat.add_0_r. auto.
      * destruct (T4 k r0 E0) as (runs' & A & B). exists runs'. change (map Reference (r' :: firstn k matches)) with ([Reference r'] ++ map Reference (firstn k matches)).
        rewrite codes_len_app, CL, Nat.add_assoc. auto.
Qed.

Lemma match_place w s runs pos r : (pos < List.length w)%nat -> match_at w s runs pos r -> (pos + 2 < List.length w)%nat /\ (pos + N.to_nat (ref_len r) <= List.length w)%nat.
Proof. intros HP H. assert (X := match_len w s runs pos r H). unfold ref_len in *. lia. Qed.
Lemma match_before w s runs pos r : match_at w s runs pos r -> (pos + 2 < List.length w)%nat /\ (pos + N.to_nat (ref_len r) <= List.length w)%nat.
Proof. intros H. assert (X := match_len w s runs pos r H). unfold ref_len in *. lia. Qed.

Lemma C101_lemma_repeats : forall level config preroll data refs n codes, 4 <= level -> Config_gzip level = Ok config ->
  bytes_ok preroll -> bytes_ok data -> with_sixteen preroll data 65535 = Ok refs ->
  let w := preroll ++ data in
  (forall pos, (List.length preroll <= pos)%nat -> (pos + 2 < List.length w)%nat ->
     exists q, (1 <= q < pos)%nat /\ (pos <= q + 4096)%nat /\ firstn 3 (skipn q w) = firstn 3 (skipn pos w)) ->
  restore (repeat Correct n) (mkTechnique config refs) = Ok codes ->
  exists matches tail, codes = map Reference matches ++ map Literal tail /\ (List.length tail <= 2)%nat
    /\ (3 * List.length matches + List.length tail <= List.length data)%nat.
Proof.
  intros level config preroll data refs n codes H4 EC B1 B2 EW w HR ER. destruct (high_level _ _ H4 EC) as (LG & RF & QU & IB & CH).
  apply (C58_lemma_restore config preroll data 65535 refs codes n B1 B2 EW) in ER. destruct ER as [HE _]. fold w in HE.
  unfold encoder_of, choice_of, finds, plain_search in HE. rewrite LG, RF, IB in HE.
  set (s := mkSearch (N.to_nat 65535) (limit_count_of_distances (cfg_wams config)) (quit_search_above_length (cfg_wams config)) true) in HE.
  assert (LW : List.length w = (List.length preroll + List.length data)%nat) by apply app_length.
  destruct (all_matches w None (fun runs pos => runs = [] /\ (List.length preroll <= pos)%nat) (match_at w s) [] (List.length preroll) codes) as (matches & tail & E & T1 & T2 & _).
  - intros. eapply match_before. eassumption.
  - intros runs pos [-> HP] HL. apply (found w s [] pos _ ltac:(lia) QU eq_refl). destruct (HR pos HP HL) as (q & Q1 & Q2 & Q3).
    assert (EE : candidates w (nearest s) [] pos = earlier w pos) by (apply candidates_earlier; unfold s; cbn [nearest]; lia).
    rewrite EE. assert (HI : In q (earlier w pos)) by (apply earlier_in; split; [lia|]; split; [lia|exact Q3]).
    assert (SD := earlier_desc w pos). unfold s; cbn [chain]. destruct (earlier w pos) as [|q0 l]; [destruct HI|]. destruct (limit_count_of_distances (cfg_wams config)) as [|k]; [lia|].
    exists q0. split; [now left|]. left. destruct HI as [->|HI]; [lia|]. apply StronglySorted_inv in SD. destruct SD as [_ SD]. rewrite Forall_forall in SD. specialize (SD _ HI). lia.
  - intros runs pos r [-> HP] _. split; [|lia]. cbn [long_runs app]. reflexivity.
  - exact HE.
  - split; [reflexivity|lia].
  - lia.
  - exists matches, tail. split; [exact E|]. split; [exact T1|].
    assert (C3 : forall l, (3 * List.length l <= codes_len (map Reference l))%nat).
    { induction l as [|r l IH]; [cbn; lia|]. change (map Reference (r :: l)) with ([Reference r] ++ map Reference l). rewrite codes_len_app. unfold codes_len at 1. cbn [map list_sum fold_right code_len List.length]. unfold ref_len. lia. }
    specialize (C3 matches). lia.
Qed.

Lemma C101_lemma_copy : forall level config before x refs n codes, 4 <= level -> Config_gzip level = Ok config -> before <> [] ->
  N.of_nat (List.length x) <= 4096 -> bytes_ok before -> bytes_ok x -> with_sixteen (before ++ x) x 65535 = Ok refs ->
  restore (repeat Correct n) (mkTechnique config refs) = Ok codes ->
  exists matches tail, codes = map Reference matches ++ map Literal tail /\ (List.length tail <= 2)%nat
    /\ (3 * List.length matches + List.length tail <= List.length x)%nat.
Proof.
  intros level config before x refs n codes H4 EC NB LX B1 B2 EW ER.
  apply (C101_lemma_repeats level config (before ++ x) x refs n codes H4 EC); [now apply Forall_app|assumption|assumption| |assumption].
  assert (LB : (1 <= List.length before)%nat) by (destruct before; [congruence|cbn [List.length]; lia]).
  intros pos HP HL. rewrite !app_length in HL. rewrite app_length in HP. exists (pos - List.length x)%nat. split; [lia|]. split; [lia|].
  assert (CT := copy_three before x (pos - List.length (before ++ x))). rewrite app_length in CT.
  replace (pos - List.length x)%nat with (List.length before + (pos - (List.length before + List.length x)))%nat by lia.
  change (three ((before ++ x) ++ x) (List.length before + (pos - (List.length before + List.length x))) = three ((before ++ x) ++ x) pos).
  rewrite CT by lia. f_equal. lia.
Qed.

(** ** One byte again and again *)
Lemma nth_repeat_some (b : N) n i : (i < n)%nat -> nth_error (repeat b n) i = Some b.
Proof. intro H. apply nth_error_repeat. exact H. Qed.

Lemma const_three b n p q : (p + 2 < n)%nat -> (q + 2 < n)%nat -> three (repeat b n) q = three (repeat b n) p.
Proof. intros HP HQ. unfold three. apply cut_eq. intros i Hi. now rewrite !nth_repeat_some by lia. Qed.

Lemma const_longest b n pos d m : (d < pos)%nat -> (pos < n)%nat -> longest_match (repeat b n) pos d m -> m = Nat.min 258 (n - pos).
Proof.
  intros HD HP (L1 & L2 & _ & L4). rewrite repeat_length in *. destruct L4 as [L4|[L4|L4]]; [lia|lia|].
  destruct (Nat.eq_dec m 258); [lia|]. destruct (Nat.eq_dec (pos + m) n); [lia|]. exfalso. apply L4. now rewrite !nth_repeat_some by lia.
Qed.

Lemma const_match b n s runs pos r : match_at (repeat b n) s runs pos r -> (pos < n)%nat -> N.to_nat (ref_len r) = Nat.min 258 (n - pos).
Proof.
  intros (refs & F & B & _) HP. apply first_best_in in B. destruct (forall2_in_r _ _ _ F r B) as (q & HI & _ & M). apply firstn_In, candidates_below in HI.
  apply const_longest in M; lia.
Qed.

Lemma const_found b n s runs pos q0 : (1 <= nearest s)%nat -> (1 <= chain s)%nat -> (pos + 2 < n)%nat ->
  (1 <= q0 < pos)%nat -> (pos <= q0 + 258)%nat -> hidden runs q0 = false -> exists r, match_at (repeat b n) s runs pos r.
Proof.
  intros HN HC HP HQ HD HH. set (w := repeat b n). assert (LW : List.length w = n) by apply repeat_length.
  set (l := filter (fun q => (hash3 w q =? hash3 w pos) && negb (hidden runs q)) (rev (seq 1 (pos - 1)))).
  assert (HI : In q0 l).
  { unfold l. rewrite filter_In, <- in_rev, in_seq. split; [lia|]. unfold w. rewrite (three_hash _ _ _ (const_three b n pos q0 HP ltac:(lia))), N.eqb_refl, HH. reflexivity. }
  assert (BL : forall q, In q l -> (1 <= q < pos)%nat) by (intros q X; unfold l in X; rewrite filter_In, <- in_rev, in_seq in X; lia).
  assert (SD : StronglySorted gt l) by apply desc_filter, desc_seq.
  assert (EH : exists h l', l = h :: l' /\ (q0 <= h)%nat).
  { destruct l as [|h l']; [destruct HI|]. exists h, l'. split; [reflexivity|]. destruct HI as [->|HI]; [lia|]. apply StronglySorted_inv in SD. destruct SD as [_ SD].
    rewrite Forall_forall in SD. specialize (SD _ HI). lia. }
  destruct EH as (h & l' & EL & HQH). assert (HB := BL h ltac:(rewrite EL; now left)).
  assert (ER : exists rest, firstn (chain s) (candidates w (nearest s) runs pos) = h :: rest).
  { unfold candidates. fold l. rewrite EL. destruct (nearest s) as [|k]; [lia|]. cbn [firstn filter]. destruct (list_eq_dec _ _ _) as [_|NE]; [|exfalso; apply NE; apply const_three; lia].
    replace (N.of_nat (pos - h) <=? 32768) with true by lia. cbn [andb]. destruct (chain s) as [|c]; [lia|]. cbn [firstn]. eauto. }
  destruct ER as (rest & ER).
  destruct (candidate_refs w (N.of_nat (nearest s)) runs pos ltac:(lia)) as (all & FA). rewrite Nnat.Nat2N.id in FA.
  assert (F := firstn_forall2 _ _ _ FA (chain s)). set (refs := firstn (chain s) all) in *.
  assert (AL : forall y, In y refs -> N.to_nat (ref_len y) = Nat.min 258 (n - pos)).
  { intros y HY. destruct (forall2_in_r _ _ _ F y HY) as (q & X & _ & M). apply firstn_In, candidates_below in X. apply const_longest in M; lia. }
  assert (FR : exists r0 rs, refs = r0 :: rs /\ r_dist r0 = N.of_nat (pos - h)).
  { rewrite ER in F. inversion F as [|? r0 ? rs (D & _) _ E1 E2]. exists r0, rs. split; [reflexivity|exact D]. }
  destruct FR as (r0 & rs & EF & D0). exists r0, refs. split; [exact F|]. split; [|intros _; right; lia].
  assert (A0 := AL r0 ltac:(rewrite EF; now left)). exists [], rs. split; [exact EF|]. destruct (N.leb_spec (nice s) (ref_len r0)).
  - left. split; [assumption|]. intros y [].
  - right. split; [|split].
    + intros y HY. specialize (AL y HY). lia.
    + intros y [].
    + intros y HY. specialize (AL y ltac:(rewrite EF; now right)). lia.
Qed.

Lemma match_early w s runs pos r : (pos <= 1)%nat -> ~ match_at w s runs pos r.
Proof.
  intros HP (refs & F & B & _). apply first_best_in in B. destruct (forall2_in_r _ _ _ F r B) as (q & X & _). apply firstn_In, candidates_below in X. lia.
Qed.

Definition const_inv (runs : list (nat * N)) (pos : nat) : Prop :=
  (exists q0, (1 <= q0 < pos)%nat /\ (pos <= q0 + 258)%nat /\ hidden runs q0 = false) /\ (forall a l, In (a, l) runs -> (a + N.to_nat l <= pos)%nat).

Lemma const_next limit runs pos r : const_inv runs pos -> ref_len r <= 258 -> const_inv (runs ++ long_runs limit pos [Reference r]) (pos + N.to_nat (ref_len r)).
Proof.
  intros ((q0 & Q1 & Q2 & Q3) & H) HL. assert (HI : forall a l, In (a, l) (runs ++ long_runs limit pos [Reference r]) -> In (a, l) runs \/ (a = pos /\ l = ref_len r)).
  { intros a l X. apply in_app_iff in X. destruct X as [X|X]; [now left|right]. cbn [long_runs] in X. rewrite app_nil_r in X. destruct limit as [l0|]; [|destruct X].
    destruct (l0 <? ref_len r); [|destruct X]. destruct X as [X|[]]. injection X as <- <-. auto. }
  split.
  - exists pos. unfold ref_len in *. split; [lia|]. split; [lia|]. unfold hidden. destruct (existsb _ _) eqn:E; [|reflexivity]. exfalso. apply existsb_exists in E.
    destruct E as ((a & l) & X & E). apply HI in X. destruct X as [X|(-> & ->)]; [specialize (H _ _ X); lia|lia].
  - intros a l X. apply HI in X. destruct X as [X|(-> & ->)]; [specialize (H _ _ X); lia|lia].
Qed.

Lemma const_count matches n : forall pos,
  (forall k r, nth_error matches k = Some r -> (pos + codes_len (map Reference (firstn k matches)) < n)%nat
     /\ N.to_nat (ref_len r) = Nat.min 258 (n - (pos + codes_len (map Reference (firstn k matches))))) ->
  (List.length matches = 0 \/ pos + 258 * (List.length matches - 1) < n)%nat.
Proof.
  induction matches as [|r matches IH]; intros pos H; [now left|right]. cbn [List.length]. assert (H0 := H 0%nat r eq_refl). cbn [firstn map] in H0. change (codes_len []) with 0%nat in H0.
  assert (CL : codes_len [Reference r] = N.to_nat (ref_len r)) by (unfold codes_len; cbn [map list_sum fold_right code_len]; lia).
  destruct (IH (pos + N.to_nat (ref_len r))%nat) as [X|X].
  - intros k r' E. assert (HK := H (S k) r' E). cbn [firstn] in HK. change (map Reference (r :: firstn k matches)) with ([Reference r] ++ map Reference (firstn k matches)) in HK.
    rewrite codes_len_app, CL, Nat.add_assoc in HK. exact HK.
  - lia.
  - destruct matches as [|r1 matches]; [cbn [List.length]; lia|]. assert (H1 := H 1%nat r1 eq_refl). cbn [firstn map] in H1. rewrite CL in H1. cbn [List.length] in *. lia.
Qed.

Lemma encoder_const w limit (P Q : list (nat * N) -> nat -> list Code -> Prop) :
  (forall runs pos codes, (pos < List.length w)%nat -> P runs pos codes -> Q runs pos codes) ->
  forall runs pos codes, encoder w limit P runs pos codes -> encoder w limit Q runs pos codes.
Proof. intros HPQ runs pos codes H. induction H; [now apply encoder_end|]. apply encoder_step; auto. Qed.

(** Looking ahead changes nothing. *)
Lemma const_choice b n config limit runs pos cs : (pos < n)%nat -> choice_of (repeat b n) config limit runs pos cs ->
  greedy_choice (repeat b n) (finds (repeat b n) config limit runs) pos cs.
Proof.
  intros HP H. unfold choice_of in H. destruct (cfg_lookahead config); [exact H| |].
  - inversion H as [r codes HF HL E|b' NM EB E].
    + inversion HL as [p r1 _ E1 E2 E3|p r1 r' b' more HN HLt HB HM E1 E2 E3].
      * apply greedy_match. congruence.
      * exfalso. destruct HN as (s & _ & HN). assert (X := match_before _ _ _ _ _ HN). rewrite repeat_length in X. apply const_match in HN; [|lia]. apply const_match in HF; [|lia]. lia.
    + now apply greedy_literal.
  - assert (HX : forall r, finds (repeat b n) config limit runs pos r -> ref_len r = 3 -> (n = pos + 3)%nat) by (intros r HF E; apply const_match in HF; [lia|exact HP]).
    assert (HY : forall p r, finds (repeat b n) config limit runs p r -> (p + 2 < n)%nat) by (intros p r HF; apply match_before in HF; rewrite repeat_length in HF; lia).
    inversion H as [b' NM EB E|r HF _ E|r HF HE H2 H3 E|r r2 b' HF HE HF2 _ _ _ E|r r3 b1 b2 HF HE HF3 _ _ _ _ E].
    + now apply greedy_literal.
    + now apply greedy_match.
    + now apply greedy_match.
    + specialize (HX _ HF HE). specialize (HY _ _ HF2). lia.
    + specialize (HX _ HF HE). specialize (HY _ _ HF3). lia.
Qed.

Lemma C101_lemma_constant : forall config limit b n refs k codes, (1 <= limit_count_of_distances (cfg_wams config))%nat -> 1 <= limit -> b < 256 ->
  with_sixteen [] (repeat b n) limit = Ok refs -> restore (repeat Correct k) (mkTechnique config refs) = Ok codes ->
  exists first matches last, codes = map Literal first ++ map Reference matches ++ map Literal last
    /\ (List.length first <= 2)%nat /\ (List.length last <= 2)%nat /\ (List.length matches <= n / 258 + 1)%nat.
Proof.
  intros config limit b n refs k codes CH HL HB EW ER.
  assert (BW : bytes_ok (repeat b n)) by (apply Forall_forall; intros x HX; apply repeat_spec in HX; subst x; exact HB).
  apply (C58_lemma_restore config [] (repeat b n) limit refs codes k ltac:(constructor) BW EW) in ER. destruct ER as [HE _]. cbn [app] in HE.
  unfold encoder_of in HE.
  apply (encoder_const _ _ _ (fun runs => greedy_choice (repeat b n) (match_at (repeat b n) (plain_search config limit) runs))) in HE;
    [|intros rn ps cs HP HC; rewrite repeat_length in HP; now apply const_choice in HC]. set (s := plain_search config limit) in HE. set (lim := insert_only_below_length (cfg_wams config)) in HE.
  set (w := repeat b n) in *. assert (LW : List.length w = (n + 0)%nat) by (rewrite Nat.add_0_r; apply repeat_length). cbn [List.length] in HE.
  destruct (le_lt_dec n 2) as [HN|HN].
  - apply encoder_tail in HE; [|intros runs' pos' cs' C' HT'; inversion C' as [r HR|b' _ _]; subst cs'; [apply match_before in HR; lia|eauto]|lia].
    destruct HE as (tail & -> & E). exists [], [], tail. split; [reflexivity|]. cbn [List.length] in *. split; [lia|]. split; [lia|]. lia.
  - inversion HE as [|? ? cs more HP C HE' X1 X2]; [lia|]. inversion C as [r HR|b1 _ _ Y]; subst cs; [exfalso; refine (match_early _ _ _ _ _ _ HR); lia|].
    unfold codes_len in HE'. cbn [map list_sum fold_right code_len long_runs app Nat.add] in HE'.
    inversion HE' as [|? ? cs more' HP' C' HE'' X4 X5]; [lia|]. inversion C' as [r HR|b2 _ _ Y']; subst cs; [exfalso; refine (match_early _ _ _ _ _ _ HR); lia|].
    unfold codes_len in HE''. cbn [map list_sum fold_right code_len long_runs app Nat.add] in HE''.
    destruct (all_matches w lim const_inv (match_at w s) [] 2 more') as (matches & tail & EM & T1 & T2 & T3).
    + intros. eapply match_before. eassumption.
    + intros rn ps ((q0 & Q1 & Q2 & Q3) & _) HLp. apply (const_found b n s rn ps q0); try assumption; try lia; unfold s, plain_search; cbn [nearest chain]; lia.
    + intros rn ps r IV HR. apply const_next; [exact IV|]. assert (X := match_len w s rn ps r HR). lia.
    + exact HE''.
    + split; [exists 1%nat; repeat split; lia|intros a l []].
    + lia.
    + exists [b1; b2], matches, tail. split; [rewrite EM; reflexivity|]. cbn [List.length]. split; [lia|]. split; [exact T1|].
      destruct (const_count matches n 2) as [X|X]; [|lia|lia].
      intros j r E. destruct (T3 j r E) as (runs' & _ & HR). assert (HX := match_before _ _ _ _ _ HR). split; [lia|]. apply (const_match b n s runs'); [exact HR|lia].
Qed.

(** ** The size of the stream *)
Lemma fixed_code_31 c w : code_bits fixed_ll fixed_dl c w -> (List.length w <= match c with Literal _ => 9 | Reference _ => 31 end)%nat.
Proof.
  intros [b w' HB H|r ls lx le lw ds dx de dw H1 H2 H3 H4].
  - apply fixed_code_bits in H. lia.
  - assert (X := length_rows _ _ _ _ H1). apply distance_extra_13 in H3. apply fixed_dist_bits in H4. destruct H1 as (base & HI & _ & _).
    assert (F : forallb (fun p => match rfc_code fixed_ll (fst (fst p)) with Some w => Nat.leb (List.length w) 8 | None => true end) length_table = true) by (vm_compute; reflexivity).
    rewrite forallb_forall in F. apply F in HI. cbn [fst snd] in HI. rewrite H2 in HI. rewrite !app_length, !lsb_length. lia.
Qed.

Lemma fixed_body_31 first matches last w : body_bits fixed_ll fixed_dl (map Literal first ++ map Reference matches ++ map Literal last) w ->
  (List.length w <= 9 * List.length first + 31 * List.length matches + 9 * List.length last + 7)%nat.
Proof.
  assert (G : forall cs w, body_bits fixed_ll fixed_dl cs w -> (List.length w <= list_sum (map (fun c => match c with Literal _ => 9 | Reference _ => 31 end)%nat cs) + 7)%nat).
  { induction 1 as [w' H|c cs w' ws H _ IH]; [apply fixed_code_bits in H; cbn; lia|]. apply fixed_code_31 in H. rewrite app_length.
    change (list_sum (map ?f (c :: cs))) with (f c + list_sum (map f cs))%nat. cbv beta. lia. }
  intro H. apply G in H. rewrite !map_app, !list_sum_app, !map_map in H.
  assert (SC : forall A (l : list A) k, list_sum (map (fun _ => k) l) = (k * List.length l)%nat).
  { intros A l k. induction l as [|x l IH]; [cbn; lia|]. change (list_sum (map (fun _ => k) (x :: l))) with (k + list_sum (map (fun _ : A => k) l))%nat. cbn [List.length]. lia. }
  rewrite !SC in H. lia.
Qed.

Lemma C101_lemma_size : forall config limit b n, (1 <= limit_count_of_distances (cfg_wams config))%nat -> 1 <= limit -> b < 256 ->
  exists codes stream, guess_pieces config limit [] [repeat b n] = Ok [codes] /\ compress_all [FixedHuffman codes] = Ok stream
    /\ (8 * List.length stream <= 31 * (n / 258) + 84)%nat.
Proof.
  intros config limit b n CH HL HB.
  assert (BW : bytes_ok (repeat b n)) by (apply Forall_forall; intros x HX; apply repeat_spec in HX; subst x; exact HB).
  destruct (pieces_guessed config limit [repeat b n] ltac:(now repeat constructor) [] ltac:(constructor)) as (css & E1 & E2 & E3 & _).
  destruct css as [|codes [|? ?]]; try discriminate E2. exists codes. inversion E3 as [|? ? OK _]; subst.
  assert (NB : [FixedHuffman codes] <> []) by discriminate.
  assert (BO : Forall block_ok [FixedHuffman codes]) by (constructor; [exact OK|constructor]).
  destruct (blocks_ok_writes _ NB BO 0) as (w & HM & W). cbn [Nat.add] in HM. assert (EC2 := compress_all_writes _ _ (W [] eq_refl) HM).
  exists (pack w). split; [exact E1|]. split; [exact EC2|].
  destruct (C18_lemma_exact [FixedHuffman codes] UnexpectedEof NB BO) as (bytes & EC3 & RT & _). rewrite EC2 in EC3. injection EC3 as <-.
  destruct RT as (it & EP & EI). { intros data [HI|[]]. discriminate. }
  assert (BP : bytes_ok (pack w)) by apply pack_bytes_ok.
  destruct (proj1 (C23_lemma (pack w) UnexpectedEof [FixedHuffman codes] [] BP) (ex_intro _ it (conj EP EI))) as (used & EU & HS). rewrite app_nil_r in EU. subst used.
  cbn [guess_pieces] in E1. change (lastn (N.to_nat 32768) []) with (@nil N) in E1.
  destruct (with_sixteen [] (repeat b n) limit) as [refs| | |] eqn:EW; try discriminate E1. cbn [obind] in E1.
  destruct (restore _ _) as [codes'| | |] eqn:ER; try discriminate E1. cbn [obind] in E1. injection E1 as <-.
  destruct (C101_lemma_constant config limit b n refs _ _ CH HL HB EW ER) as (first & matches & last & -> & F1 & F2 & F3).
  assert (HS' : (List.length (bits_of_bytes (pack w)) <= 31 * (n / 258) + 84)%nat).
  { revert HS. generalize (bits_of_bytes (pack w)). intros bs HS. inversion HS as [? ? w' k HB' HP' X1 X2|? ? ? w' ws NE HB' HS' X1 X2]; subst; [|congruence]. inversion HB'; subst.
 match goal with X : body_bits _ _ _ _ |- _ => apply fixed_body_31 in X end. destruct HP' as [HP' _]. cbn [List.length]. rewrite !app_length, lsb_length, repeat_length. lia. }
  rewrite bits_of_bytes_length in HS'. exact HS'.
Qed.

(** ** Levels 1 to 3 *)
Definition low_witness : list N := List.concat (map (fun a => [a; 2; 3]) [1; 33; 65; 97; 129; 161; 193; 225]).
Lemma C101_lemma_low : forall level, 1 <= level <= 3 ->
  exists config lazy_ before x refs n b more, Config_gzip level = Ok config /\ insert_only_below_length (cfg_wams config) = Some lazy_
    /\ before <> [] /\ N.of_nat (List.length x) <= 4096 /\ bytes_ok before /\ bytes_ok x /\ with_sixteen (before ++ x) x lazy_ = Ok refs
    /\ restore (repeat Correct n) (mkTechnique config refs) = Ok (Literal b :: more) /\ (3 <= List.length x)%nat.
Proof.
  assert (W : forall limit, exists refs, with_sixteen ([0] ++ low_witness) low_witness limit = Ok refs).
  { intro limit. destruct (with_sixteen_ok ([0] ++ low_witness) low_witness limit) as (refs & E & _). eauto. }
  assert (R : forall level, In level [1; 2; 3] -> match Config_gzip level with
     | Ok config => match insert_only_below_length (cfg_wams config) with
        | Some lazy_ => match with_sixteen ([0] ++ low_witness) low_witness lazy_ with
            | Ok refs => match restore (repeat Correct 24) (mkTechnique config refs) with Ok (Literal b :: _) => True | _ => False end
            | _ => False end
        | None => False end
     | _ => False end).
  { intros level [<-|[<-|[<-|[]]]]; vm_compute; exact I. }
  intros level HL. specialize (R level). assert (HI : In level [1; 2; 3]) by (cbn [In]; lia). specialize (R HI). clear W.
  destruct (Config_gzip level) as [config| | |] eqn:EC; try contradiction. destruct (insert_only_below_length (cfg_wams config)) as [lazy_|] eqn:EI; [|contradiction].
  destruct (with_sixteen ([0] ++ low_witness) low_witness lazy_) as [refs| | |] eqn:EW; try contradiction.
  destruct (restore _ _) as [[|[b|] more]| | |] eqn:ER; try contradiction.
  exists config, lazy_, [0], low_witness, refs, 24%nat, b, more. split; [reflexivity|]. split; [exact EI|]. split; [discriminate|]. split; [cbn; lia|].
  split; [repeat constructor|]. split; [unfold low_witness; cbn [List.concat map app]; repeat constructor|]. split; [exact EW|]. split; [exact ER|]. cbn; lia.
Qed.
