(** Lemmas: with machine arithmetic, in either build, searching and tracing do what the model says. *)
From Verif Require Import Base M_bit M_lib M_all_refs M_technique M_trace M_arith M_arith_search Spec L_arith L_bits.
From Coq Require Import ZArith ZifyBool ZifyNat ZifyN.
Ltac Zify.zify_post_hook ::= Z.div_mod_to_equations.
Local Open Scope N_scope.
Local Open Scope model_scope.

Definition small (n : nat) : Prop := N.of_nat n < 2 ^ 61.
Definition ref_small (r : Ref) : Prop := r_dist r < 65536 /\ r_run_minus_3 r < 256.
Definition code_small (c : Code) : Prop := match c with Literal _ => True | Reference r => ref_small r end.
Definition hint_small (h : Trace) : Prop := match h with Actually r => ref_small r | _ => True end.
Definition obs_small (o : Obscure) : Prop := snd o < 65536.

Ltac w64 := change (2 ^ 64) with 18446744073709551616 in *; change (2 ^ 61) with 2305843009213693952 in *;
  change (2 ^ 60) with 1152921504606846976 in *; change (2 ^ 16) with 65536 in *; lia.

Section S.
Context (bd : build).

Lemma addp_ok a b : N.of_nat a + N.of_nat b < 2 ^ 64 -> addp bd a b = Ok (a + b)%nat.
Proof. intro H. unfold addp. rewrite add_ok by exact H. cbn [obind]. f_equal. lia. Qed.
Lemma subp_ok a b : (b <= a)%nat -> subp bd a b = Ok (a - b)%nat.
Proof. intro H. unfold subp. rewrite sub_ok by lia. cbn [obind]. f_equal. lia. Qed.
Lemma run_ok r : ref_small r -> mc_run bd r = Ok (r_run r).
Proof. unfold ref_small. intros [_ H]. unfold mc_run, r_run. now rewrite add_ok by w64. Qed.
Lemma emitted_ok c : code_small c -> mc_emitted_bytes bd c = Ok (emitted_bytes c).
Proof. destruct c; [reflexivity|]. exact (run_ok r). Qed.
Lemma emitted_le c : code_small c -> emitted_bytes c <= 258.
Proof. destruct c; cbn [emitted_bytes code_small]; unfold r_run, ref_small; lia. Qed.
Lemma ref_new_ok d n : mc_Ref_new bd d n = Ref_new d n.
Proof.
  unfold mc_Ref_new, Ref_new. destruct (N.leb_spec 3 n); [|reflexivity]. destruct (n <=? 258); [|reflexivity].
  destruct (1 <=? d); [|reflexivity]. destruct (d <=? 32768); [|reflexivity]. now rewrite sub_ok by lia.
Qed.
Lemma ref_new_small d n r : Ref_new d n = Ok r -> ref_small r.
Proof.
  unfold Ref_new. destruct (3 <=? n); [|discriminate]. destruct (n <=? 258); [|discriminate]. destruct (1 <=? d); [|discriminate].
  destruct (N.leb_spec d 32768); [|discriminate]. intro E. injection E as <-. split; [cbn [r_dist]; lia|]. apply N.mod_lt. discriminate.
Qed.

Lemma filter_ok {A} (f : A -> outcome bool) g l : (forall x, In x l -> f x = Ok (g x)) -> mc_filter f l = Ok (filter g l).
Proof.
  induction l as [|x l IH]; intro H; [reflexivity|]. cbn [mc_filter filter]. rewrite H by (now left). cbn [obind].
  rewrite IH by (intros y Hy; apply H; now right). cbn [obind]. now destruct (g x).
Qed.

Lemma contains_ok ob needle : small needle -> Forall obs_small ob -> mc_contains bd ob needle = Ok (obs_contains ob needle).
Proof.
  unfold small. intro HN. induction 1 as [|[st len] ob H _ IH]; [reflexivity|]. cbn [mc_contains obs_contains]. unfold obs_small in H. cbn [fst snd] in H.
  destruct (Nat.ltb_spec st needle); cbn [andb obind].
  - rewrite addp_ok by w64. cbn [obind]. destruct (Nat.ltb needle _); [reflexivity|exact IH].
  - exact IH.
Qed.
Lemma obscure_ok from ob : Forall small from -> Forall obs_small ob -> mc_obscure bd from ob = Ok (obscure from ob).
Proof. intros HF H. rewrite Forall_forall in HF. apply filter_ok. intros x Hx. now rewrite contains_ok by auto. Qed.

Lemma hash_ok k : mc_sixteen_hash_16 bd k = Ok (sixteen_hash_16 k).
Proof. unfold mc_sixteen_hash_16, shl, sixteen_hash_16. change (5 <? 16) with true. cbn [obind]. reflexivity. Qed.

Lemma window_loop_ok keys : forall pos t, mc_from_window_loop bd pos keys t = from_window_loop pos keys t.
Proof.
  induction keys as [|k keys IH]; intros pos t; cbn [mc_from_window_loop from_window_loop]; [reflexivity|].
  rewrite hash_ok. cbn [obind]. destruct (hash_get _ _); cbn [obind]; [|reflexivity..]. destruct (set_idx _ _ _); cbn [obind]; [apply IH|reflexivity..].
Qed.
Lemma sixteen_ok preroll data limit : small (List.length preroll + List.length data) ->
  mc_with_sixteen bd preroll data limit = with_sixteen preroll data limit.
Proof.
  intro H. unfold small in H. unfold mc_with_sixteen, with_sixteen, mc_from_window, from_window. rewrite addp_ok by w64. cbn [obind]. now rewrite window_loop_ok.
Qed.
Lemma bm_get_same m k : mc_bm_get bd m k = bm_get m k.
Proof. unfold mc_bm_get, bm_get. now rewrite hash_ok. Qed.

Lemma get_ok a p : mc_ar_get bd a p = ar_get a p.
Proof. unfold mc_ar_get, ar_get. destruct (Nat.ltb_spec p (List.length (ar_preroll a))); [reflexivity|]. now rewrite subp_ok by lia. Qed.

Lemma mismatch_ext curs f g : (forall c, In c curs -> f c = g c) -> first_mismatch curs f = first_mismatch curs g.
Proof.
  induction curs as [|c curs IH]; intro H; [reflexivity|]. cbn [first_mismatch]. rewrite H by (now left).
  destruct (g c) as [[]| | |]; cbn [obind]; try reflexivity. apply IH. intros x Hx. apply H. now right.
Qed.

Section Refs.
Context (a : AllRefs) (HL : small (ar_data_len a)).

Lemma len_ok : mc_data_len bd a = Ok (ar_data_len a).
Proof. unfold small, ar_data_len in HL. unfold mc_data_len. now rewrite addp_ok by w64. Qed.

Lemma key_ok p : N.of_nat p + 2 < 2 ^ 64 -> mc_key bd a p = ar_key a p.
Proof.
  intro H. unfold mc_key, ar_key. rewrite (addp_ok p 2), len_ok by w64. cbn [obind]. destruct (Nat.ltb _ _); [|reflexivity].
  rewrite get_ok. destruct (ar_get a p); cbn [obind]; [|reflexivity..]. rewrite (addp_ok p 1) by w64. cbn [obind]. rewrite get_ok.
  destruct (ar_get a (p + 1)); cbn [obind]; [|reflexivity..]. now rewrite get_ok.
Qed.

Lemma upcoming_ok p is : small p -> Forall (fun i => (i <= 258)%nat) is ->
  mc_upcoming bd a p is = ar_get_all a (map (fun i => p + i)%nat is).
Proof.
  unfold small. intros Hp H. induction H as [|i is Hi _ IH]; [reflexivity|]. cbn [mc_upcoming map ar_get_all]. rewrite addp_ok by w64. cbn [obind].
  rewrite get_ok. destruct (ar_get a (p + i)); cbn [obind]; [|reflexivity..]. now rewrite IH.
Qed.

Lemma run_at_ok p d : (p <= ar_data_len a)%nat -> (N.to_nat d <= p)%nat ->
  mc_possible_run_length_at bd a p d = possible_run_length_at a p d.
Proof.
  intros Hp Hd. unfold mc_possible_run_length_at, possible_run_length_at. rewrite len_ok. cbn [obind]. rewrite subp_ok by exact Hp. cbn [obind].
  destruct (Nat.ltb_spec (ar_data_len a) p) as [|_]; [lia|]. set (n := Nat.min 258 (ar_data_len a - p)).
  rewrite upcoming_ok. 2: { unfold small in *. lia. } 2: { apply Forall_forall. intros i Hi. apply in_seq in Hi. unfold n in Hi. lia. }
  destruct (ar_get_all a _) as [up| | |]; cbn [obind]; [|reflexivity..].
  rewrite (mismatch_ext (range 3 (Nat.min (N.to_nat d) n)) _
    (fun cur => neqb_o (get_idx up cur) (ar_get_at_dist a p (d - N.of_nat cur)))); [reflexivity|].
  intros c Hc. unfold range in Hc. apply in_seq in Hc. unfold neqb_o. destruct (get_idx up c); cbn [obind]; [|reflexivity..].
  rewrite sub_ok by lia. cbn [obind]. unfold mc_get_at_dist, ar_get_at_dist. rewrite subp_ok by lia. cbn [obind].
  destruct (Nat.ltb_spec p (N.to_nat (d - N.of_nat c))) as [|_]; [lia|]. now rewrite get_ok.
Qed.

Lemma same_key_same key offs : Forall small offs -> mc_filter (mc_same_key bd a key) offs = filter_same_key a key offs.
Proof.
  unfold small. induction 1 as [|off offs H _ IH]; [reflexivity|]. cbn [mc_filter filter_same_key].
  assert (E : mc_same_key bd a key off = (b0 <-? ar_get a off ;;
      (if b0 =? k0 key
                then b1 <-? ar_get a (off + 1) ;;
                     if b1 =? k1 key
                     then b2 <-? ar_get a (off + 2) ;; Ok (b2 =? k2 key)
                     else Ok false
                else Ok false))).
  { unfold mc_same_key. rewrite get_ok. destruct (ar_get a off); cbn [obind]; [|reflexivity..]. destruct (_ =? _); [|reflexivity].
    rewrite addp_ok by w64. cbn [obind]. rewrite get_ok. destruct (ar_get a (off + 1)); cbn [obind]; [|reflexivity..]. destruct (_ =? _); [|reflexivity].
    rewrite addp_ok by w64. cbn [obind]. now rewrite get_ok. }
  rewrite E, IH. destruct (ar_get a off); reflexivity.
Qed.
Lemma same_key_sub key offs : forall l, filter_same_key a key offs = Ok l -> forall x, In x l -> In x offs.
Proof.
  induction offs as [|off offs IH]; intros l E x Hx; [injection E as <-; destruct Hx|]. cbn [filter_same_key] in E.
  destruct (ar_get a off); cbn [obind] in E; try discriminate E.
  match type of E with obind ?k _ = _ => destruct k as [keep| | |] end; cbn [obind] in E; try discriminate E.
  destruct (filter_same_key a key offs) as [l'| | |]; cbn [obind] in E; try discriminate E. specialize (IH l' eq_refl x).
  destruct keep; injection E as <-; [destruct Hx as [<-|Hx]; [now left|]|]; right; auto.
Qed.

Lemma map_refs_ok p offs : (p <= ar_data_len a)%nat -> Forall (fun o => (o <= p)%nat) offs -> mc_map_refs bd a p offs = map_refs a p offs.
Proof.
  intros Hp. induction 1 as [|off offs H _ IH]; [reflexivity|]. cbn [mc_map_refs map_refs]. rewrite subp_ok by exact H. cbn [obind].
  destruct (65535 <? _); [reflexivity|]. rewrite run_at_ok by lia. destruct (possible_run_length_at _ _ _); cbn [obind]; [|reflexivity..].
  rewrite ref_new_ok. destruct (Ref_new _ _); cbn [obind]; [|reflexivity..]. now rewrite IH.
Qed.
Lemma map_refs_small p offs : forall l, map_refs a p offs = Ok l -> Forall ref_small l.
Proof.
  induction offs as [|off offs IH]; intros l E; cbn [map_refs] in E; [injection E as <-; constructor|].
  destruct (65535 <? _); [discriminate E|]. destruct (possible_run_length_at _ _ _); cbn [obind] in E; try discriminate E.
  destruct (Ref_new _ _) as [r| | |] eqn:ER; cbn [obind] in E; try discriminate E. destruct (map_refs a p offs); cbn [obind] in E; try discriminate E.
  injection E as <-. constructor; [exact (ref_new_small _ _ _ ER)|auto].
Qed.

Lemma at_ok p ob : N.of_nat p + 2 < 2 ^ 64 -> Forall obs_small ob -> mc_at bd a p ob = ar_at a p ob.
Proof.
  intros Hp HO. unfold mc_at, ar_at. rewrite key_ok by exact Hp. destruct (ar_key a p) as [[key|]| | |] eqn:EK; cbn [obind]; try reflexivity.
  assert (HP : (p + 2 < ar_data_len a)%nat).
  { unfold ar_key in EK. destruct (Nat.ltb_spec (p + 2) (ar_data_len a)); [assumption|discriminate EK]. }
  destruct (Nat.eqb 0 p); [reflexivity|]. rewrite bm_get_same. destruct (bm_get _ _) as [chain| | |]; cbn [obind]; [|reflexivity..].
  rewrite obscure_ok.
  2: { apply Forall_forall. intros x Hx. apply filter_In in Hx. destruct Hx as [_ Hx]. apply Nat.ltb_lt in Hx. unfold small in *. lia. }
  2: exact HO. cbn [obind]. set (o1 := firstn _ (obscure _ _)).
  assert (H1 : forall x, In x o1 -> (x < p)%nat).
  { intros x Hx. assert (H2 : In x (obscure (filter (fun off => Nat.ltb off p) chain) ob)).
    { unfold o1 in Hx. rewrite <- (firstn_skipn (N.to_nat (ar_limit a))). apply in_or_app. now left. }
    unfold obscure in H2. apply filter_In in H2. destruct H2 as [H2 _]. apply filter_In in H2. destruct H2 as [_ H2]. now apply Nat.ltb_lt. }
  rewrite (filter_ok _ (fun off => N.of_nat (p - off) <=? 32768)).
  2: { intros x Hx. apply H1 in Hx. now rewrite subp_ok by lia. }
  cbn [obind]. set (o2 := filter _ o1). assert (H2 : forall x, In x o2 -> (x < p)%nat) by (intros x Hx; apply filter_In in Hx; apply H1, Hx).
  rewrite same_key_same. 2: { apply Forall_forall. intros x Hx. apply H2 in Hx. unfold small in *. lia. }
  destruct (filter_same_key a key o2) as [o3| | |] eqn:E3; cbn [obind]; [|reflexivity..].
  rewrite map_refs_ok; [reflexivity|lia|]. apply Forall_forall. intros x Hx. pose proof (H2 x (same_key_sub _ _ _ E3 x Hx)). lia.
Qed.
Lemma at_small p ob refs : ar_at a p ob = Ok (Some refs) -> Forall ref_small refs.
Proof.
  unfold ar_at. destruct (ar_key a p) as [[key|]| | |]; cbn [obind]; try discriminate. destruct (Nat.eqb 0 p); [intro E; injection E as <-; constructor|].
  destruct (bm_get _ _); cbn [obind]; try discriminate. destruct (filter_same_key _ _ _); cbn [obind]; try discriminate.
  destruct (map_refs _ _ _) eqn:EM; cbn [obind]; try discriminate. intro E. injection E as <-. exact (map_refs_small _ _ _ EM).
Qed.
End Refs.

(** ** Picking *)
Lemma max_loop_ok cap it : forall m, ref_small m -> Forall ref_small it ->
  mc_capped_max_loop bd cap m (r_run m) it = Ok (capped_max_loop r_run cap m (r_run m) it) /\ ref_small (capped_max_loop r_run cap m (r_run m) it).
Proof.
  induction it as [|c it IH]; intros m Hm H; cbn [mc_capped_max_loop capped_max_loop]; [auto|]. inversion H as [|? ? Hc Hit]; subst.
  rewrite run_ok by exact Hc. cbn [obind]. destruct (_ <? _); [destruct (cap <=? _); auto|auto].
Qed.
Definition opt_small (o : option Ref) : Prop := match o with Some r => ref_small r | None => True end.
Lemma longest_ok l cap : Forall ref_small l -> mc_longest bd l cap = Ok (longest l cap) /\ opt_small (longest l cap).
Proof.
  intro H. destruct H as [|m it Hm Hit]; [cbn; auto|]. unfold longest, capped_max_by. cbn [mc_longest]. rewrite run_ok by exact Hm. cbn [obind].
  destruct (cap <=? _); [cbn; auto|]. destruct (max_loop_ok cap it m Hm Hit) as [E P]. rewrite E. cbn [obind opt_small]. auto.
Qed.
Lemma option_filter_ok f g o : opt_small o -> (forall r, ref_small r -> f r = Ok (g r)) ->
  mc_option_filter f o = Ok (option_filter g o) /\ opt_small (option_filter g o).
Proof. intros H E. destruct o as [r|]; cbn [mc_option_filter option_filter opt_small]; [|auto]. rewrite E by exact H. cbn [obind]. destruct (g r); cbn [opt_small]; auto. Qed.
Lemma picker_ok p l cap : Forall ref_small l -> mc_picker bd p l cap = Ok (picker p l cap) /\ opt_small (picker p l cap).
Proof.
  intro H. destruct p; cbn [mc_picker picker]; [exact (longest_ok l cap H)|]. unfold drop_far_threes. destruct (longest_ok l cap H) as [E P]. rewrite E.
  cbn [obind]. apply option_filter_ok; [exact P|]. intros r Hr. now rewrite run_ok.
Qed.

Lemma firstn_all_of {A} (P : A -> Prop) n l : Forall P l -> Forall P (firstn n l).
Proof. intro H. revert n. induction H; intros [|n]; cbn [firstn]; constructor; auto. Qed.

Ltac codes := repeat first [apply Forall_nil | apply Forall_cons]; cbn [code_small opt_small] in *; first [exact I | assumption].

Section Tech.
Context (t : Technique) (HL : small (ar_data_len (t_refs t))).

Lemma better_ok ob p other : N.of_nat p + 2 < 2 ^ 64 -> Forall obs_small ob ->
  mc_better_than bd t ob p other = best_candidate_better_than t ob p other
  /\ match best_candidate_better_than t ob p other with Ok (_, o) => opt_small o | _ => True end.
Proof.
  intros Hp HO. unfold mc_better_than, best_candidate_better_than. rewrite get_ok. destruct (ar_get (t_refs t) p) as [lit| | |]; cbn [obind]; auto.
  destruct (search_limit _ _) as [limit|]; [|cbn; auto]. rewrite at_ok by assumption. destruct (ar_at (t_refs t) p ob) as [[it|]| | |] eqn:EA; cbn [obind opt_small]; auto.
  destruct (picker_ok (cfg_picker (t_config t)) (firstn limit it) (quit_search_above_length (cfg_wams (t_config t)))) as [E P].
  { apply firstn_all_of. exact (at_small _ _ _ _ EA). }
  rewrite E. cbn [obind]. auto.
Qed.

Definition guesses_ok (n : nat) (o : outcome (list Code)) : Prop :=
  match o with Ok l => Forall code_small l /\ (List.length l <= n)%nat | _ => True end.

Lemma greedy_ok ob p : N.of_nat p + 2 < 2 ^ 64 -> Forall obs_small ob ->
  mc_greedy bd t ob p = la_greedy t ob p /\ guesses_ok 1 (la_greedy t ob p).
Proof.
  intros Hp HO. unfold mc_greedy, la_greedy, best_candidate. destruct (better_ok ob p None Hp HO) as [E P]. rewrite E. split; [reflexivity|].
  destruct (best_candidate_better_than t ob p None) as [[lit o]| | |]; cbn [obind guesses_ok]; auto. split; [|cbn; lia]. destruct o; codes.
Qed.

Lemma gzip_loop_ok ob : Forall obs_small ob -> forall fuel p lit r, N.of_nat p + N.of_nat fuel + 2 < 2 ^ 64 -> ref_small r ->
  mc_gzip_loop bd fuel t ob p lit r = la_gzip_loop fuel t ob p lit r /\ guesses_ok fuel (la_gzip_loop fuel t ob p lit r).
Proof.
  intros HO. induction fuel as [|fuel IH]; intros p lit r Hp Hr; [cbn; auto|]. cbn [mc_gzip_loop la_gzip_loop].
  rewrite addp_ok by lia. cbn [obind]. rewrite run_ok by exact Hr. cbn [obind]. rewrite Nat.add_1_r.
  destruct (better_ok ob (S p) (Some (r_run r))) as [E P]; [lia|exact HO|]. rewrite E.
  destruct (best_candidate_better_than t ob (S p) (Some (r_run r))) as [[b [new|]]| | |]; cbn [obind guesses_ok]; auto.
  2: { repeat split; [constructor; [exact Hr|constructor]|cbn; lia]. }
  rewrite !run_ok by assumption. cbn [obind]. destruct (_ <? _).
  - destruct (IH (S p) b new) as [E2 P2]; [lia|exact P|]. rewrite E2. destruct (la_gzip_loop fuel t ob (S p) b new); cbn [obind]; auto.
    split; [reflexivity|]. destruct P2. cbn [guesses_ok List.length]. split; [constructor; [exact I|assumption]|lia].
  - cbn [guesses_ok]. repeat split; [constructor; [exact Hr|constructor]|cbn; lia].
Qed.
Lemma gzip_ok ob p : small p -> Forall obs_small ob -> mc_gzip bd t ob p = la_gzip t ob p /\ guesses_ok 300 (la_gzip t ob p).
Proof.
  unfold small. intros Hp HO. unfold mc_gzip, la_gzip, best_candidate. destruct (better_ok ob p None) as [E P]; [w64|exact HO|]. rewrite E.
  destruct (best_candidate_better_than t ob p None) as [[b [r|]]| | |]; cbn [obind]; auto.
  - apply gzip_loop_ok; [exact HO|w64|exact P].
  - split; [reflexivity|]. cbn [guesses_ok List.length]. split; [codes|lia].
Qed.
Lemma three_ok ob p : small p -> Forall obs_small ob -> mc_three_zip bd t ob p = la_three_zip t ob p /\ guesses_ok 3 (la_three_zip t ob p).
Proof.
  unfold small. intros Hp HO. unfold mc_three_zip, la_three_zip, best_candidate. destruct (better_ok ob p None) as [E P]; [w64|exact HO|]. rewrite E.
  destruct (best_candidate_better_than t ob p None) as [[b [r|]]| | |]; cbn [obind]; try (split; [reflexivity|exact I]).
  2: { split; [reflexivity|]. cbn [guesses_ok List.length]. split; [codes|lia]. }
  rewrite run_ok by exact P. cbn [obind]. destruct (3 <? r_run r); [split; [reflexivity|]; cbn [guesses_ok List.length]; split; [codes|lia]|].
  destruct (negb _); [cbn; auto|]. rewrite addp_ok by w64. cbn [obind].
  destruct (better_ok ob (p + 1) None) as [E2 P2]; [w64|exact HO|]. rewrite E2.
  destruct (best_candidate_better_than t ob (p + 1) None) as [[b2 o2]| | |]; cbn [obind]; try (cbn; auto; fail).
  destruct (option_filter_ok (fun x => n <-? mc_run bd x ;; Ok (3 <? n)) (fun x => 3 <? r_run x) o2 P2) as [E3 P3];
    [intros x Hx; now rewrite run_ok|]. rewrite E3. cbn [obind].
  destruct (option_filter (fun x => 3 <? r_run x) o2) as [r2|].
  - rewrite run_ok by exact P3. cbn [obind]. destruct (r_run r2 =? 258); [split; [reflexivity|]; cbn [guesses_ok List.length]; split; [codes|lia]|].
    rewrite addp_ok by w64. cbn [obind]. destruct (better_ok ob (p + 2) None) as [E4 P4]; [w64|exact HO|]. rewrite E4.
    destruct (best_candidate_better_than t ob (p + 2) None) as [[b3 o3]| | |]; cbn [obind]; try (cbn; auto; fail).
    destruct (option_filter_ok (fun x => n <-? mc_run bd x ;; Ok (4 <? n)) (fun x => 4 <? r_run x) o3 P4) as [E5 P5];
      [intros x Hx; now rewrite run_ok|]. rewrite E5. cbn [obind].
    destruct (option_filter (fun x => 4 <? r_run x) o3) as [r3|].
    + rewrite !run_ok by assumption. cbn [obind]. destruct (_ <? _); (split; [reflexivity|]; cbn [guesses_ok List.length]; split; [codes|lia]).
    + split; [reflexivity|]; cbn [guesses_ok List.length]; split; [codes|lia].
  - rewrite addp_ok by w64. cbn [obind]. destruct (better_ok ob (p + 2) None) as [E4 P4]; [w64|exact HO|]. rewrite E4.
    destruct (best_candidate_better_than t ob (p + 2) None) as [[b3 o3]| | |]; cbn [obind]; try (cbn; auto; fail).
    destruct (option_filter_ok (fun x => n <-? mc_run bd x ;; Ok (4 <? n)) (fun x => 4 <? r_run x) o3 P4) as [E5 P5];
      [intros x Hx; now rewrite run_ok|]. rewrite E5. cbn [obind].
    destruct (option_filter (fun x => 4 <? r_run x) o3) as [r3|]; (split; [reflexivity|]; cbn [guesses_ok List.length]; split; [codes|lia]).
Qed.

Lemma guesses_more n m o : guesses_ok n o -> (n <= m)%nat -> guesses_ok m o.
Proof. destruct o; cbn [guesses_ok]; auto. intros [H1 H2] H. split; [exact H1|lia]. Qed.

Lemma codes_ok s : small (sc_pos s) -> Forall obs_small (sc_obscured s) ->
  mc_sc_codes bd t s = sc_codes t s /\ guesses_ok 300 (sc_codes t s).
Proof.
  unfold small. intros Hp HO. unfold mc_sc_codes, sc_codes, lookahead. destruct (cfg_lookahead (t_config t)).
  - destruct (greedy_ok (sc_obscured s) (sc_pos s)) as [E P]; [w64|exact HO|]. split; [exact E|]. eapply guesses_more; [exact P|lia].
  - apply gzip_ok; assumption.
  - destruct (three_ok (sc_obscured s) (sc_pos s)) as [E P]; [exact Hp|exact HO|]. split; [exact E|]. eapply guesses_more; [exact P|lia].
Qed.

(** ** Tracing *)
Definition pos_below (n : N) (s : Scanner) : Prop := N.of_nat (sc_pos s) < n /\ Forall obs_small (sc_obscured s).

Lemma feedback_ok n s c : code_small c -> n + 1000 < 2 ^ 62 -> pos_below n s ->
  mc_feedback bd t s c = Ok (feedback t s c) /\ pos_below (n + 258) (feedback t s c).
Proof.
  intros Hc Hn [Hp HO]. change (2 ^ 62) with 4611686018427387904 in Hn. unfold mc_feedback, feedback. rewrite emitted_ok by exact Hc. cbn [obind]. pose proof (emitted_le c Hc).
  rewrite addp_ok by w64. cbn [obind]. unfold pos_below. destruct (insert_only_below_length _) as [lim|]; [|cbn [sc_pos sc_obscured]; repeat split; [lia|exact HO]].
  destruct c as [b|r]; [cbn [sc_pos sc_obscured emitted_bytes] in *; repeat split; [lia|exact HO]|]. cbn [code_small] in Hc. cbn [emitted_bytes] in *. rewrite !run_ok by exact Hc. cbn [obind].
  destruct (_ <=? _); cbn [sc_pos sc_obscured]; repeat split; [lia|exact HO|lia|]. apply Forall_app. split; [exact HO|]. constructor; [|constructor].
  unfold obs_small. cbn [fst snd]. lia.
Qed.
Lemma feedbacks_ok cs : forall n s, Forall code_small cs -> n + 258 * N.of_nat (List.length cs) + 1000 < 2 ^ 62 -> pos_below n s ->
  mc_feedbacks bd t cs s = Ok (fold_left (feedback t) cs s) /\ pos_below (n + 258 * N.of_nat (List.length cs)) (fold_left (feedback t) cs s).
Proof.
  induction cs as [|c cs IH]; intros n s Hc Hn HS; cbn [mc_feedbacks fold_left List.length] in *; [rewrite N.mul_0_r, N.add_0_r; auto|].
  inversion Hc as [|? ? H1 H2]; subst. destruct (feedback_ok n s c H1 ltac:(lia) HS) as [E P]. rewrite E. cbn [obind].
  destruct (IH (n + 258) (feedback t s c) H2 ltac:(lia) P) as [E2 P2]. rewrite E2. split; [reflexivity|].
  replace (n + 258 * N.of_nat (S (List.length cs))) with (n + 258 + 258 * N.of_nat (List.length cs)) by lia. exact P2.
Qed.

Lemma prefix_small g : forall cs m r, shared_prefix g cs = (m, r) -> Forall code_small g -> Forall code_small cs ->
  Forall code_small m /\ Forall code_small r /\ (List.length m <= List.length g)%nat.
Proof.
  induction g as [|x g IH]; intros cs m r E Hg Hc; cbn [shared_prefix] in E; [injection E as <- <-; auto|].
  destruct cs as [|v cs]; [injection E as <- <-; repeat split; [constructor|constructor|cbn; lia]|].
  destruct (Code_eqb v x); [|injection E as <- <-; repeat split; [constructor|exact Hc|cbn; lia]].
  destruct (shared_prefix g cs) as [m' r'] eqn:EP. injection E as <- <-. inversion Hg; subst. inversion Hc; subst.
  destruct (IH cs m' r' EP) as (A & B & C); [assumption..|]. repeat split; [now constructor|exact B|cbn; lia].
Qed.

Definition started (s : Scanner) : Prop := pos_below (2 ^ 61 + 100000) s.
Lemma more_ok s : mc_more_data bd t s = Ok (more_data t s).
Proof. unfold mc_more_data, more_data, sc_data_len. now rewrite len_ok. Qed.
Lemma more_small s : more_data t s = true -> started s -> pos_below (2 ^ 61) s.
Proof. intros H [_ HO]. unfold more_data, sc_data_len in H. apply Nat.ltb_lt in H. split; [unfold small in HL; lia|exact HO]. Qed.

Lemma trace_loop_ok fuel : forall s cs, started s -> Forall code_small cs ->
  mc_trace_loop bd fuel t s cs = trace_loop fuel t s cs
  /\ match trace_loop fuel t s cs with Ok l => Forall hint_small l | _ => True end.
Proof.
  induction fuel as [|fuel IH]; intros s cs HS Hc; [cbn; auto|]. cbn [mc_trace_loop trace_loop]. rewrite more_ok. cbn [obind].
  destruct (more_data t s) eqn:EM; [|auto]. pose proof (more_small s EM HS) as HP. clear HS.
  destruct (codes_ok s) as [E P]; [apply HP|apply HP|]. rewrite E. destruct (sc_codes t s) as [g| | |]; cbn [obind]; auto.
  destruct g as [|g0 g']; [auto|]. set (g := g0 :: g') in *. clearbody g. destruct P as [PG PL].
  destruct (shared_prefix g cs) as [m r] eqn:EP. destruct (prefix_small g cs m r EP PG Hc) as (Hm & Hr & HLm).
  assert (W : 2 ^ 61 = 2305843009213693952) by reflexivity. assert (W2 : 2 ^ 62 = 4611686018427387904) by reflexivity.
  destruct (feedbacks_ok m (2 ^ 61) s Hm ltac:(lia) HP) as [E2 P2]. rewrite E2. cbn [obind].
  set (s2 := fold_left (feedback t) m s) in *. clearbody s2.
  assert (HM : Forall hint_small (map (fun _ => Correct) m)) by (clear; induction m; constructor; [exact I|assumption]).
  destruct (Nat.eqb (List.length m) (List.length g)).
  - destruct (IH s2 r) as [E3 P3]; [destruct P2; split; [lia|assumption]|exact Hr|]. rewrite E3. split; [reflexivity|].
    destruct (trace_loop fuel t s2 r); cbn [obind]; auto. now apply Forall_app.
  - destruct r as [|c r]; [auto|]. inversion Hr as [|? ? Hc1 Hr1]; subst.
    destruct (feedback_ok (2 ^ 61 + 258 * N.of_nat (List.length m)) s2 c Hc1 ltac:(lia) P2) as [E3 P3]. rewrite E3. cbn [obind].
    destruct (IH (feedback t s2 c) r) as [E4 P4]; [destruct P3; split; [lia|assumption]|exact Hr1|]. rewrite E4. split; [reflexivity|].
    destruct (trace_loop fuel t (feedback t s2 c) r); cbn [obind]; auto. apply Forall_app. split; [exact HM|]. constructor; [|assumption].
    destruct c; cbn [hint_of hint_small]; [exact I|exact Hc1].
Qed.

Lemma scanner_started : started (scanner t).
Proof. split; [|constructor]. cbn [scanner sc_pos]. unfold small, ar_data_len in HL. lia. Qed.

Lemma trace_ok cs : Forall code_small cs -> mc_trace bd cs t = trace cs t /\ match trace cs t with Ok l => Forall hint_small l | _ => True end.
Proof. intro H. apply trace_loop_ok; [exact scanner_started|exact H]. Qed.

Lemma restore_guesses_ok g : forall n s tr, Forall code_small g -> Forall hint_small tr -> n + 258 * N.of_nat (List.length g) + 1000 < 2 ^ 62 ->
  pos_below n s ->
  mc_restore_guesses bd t g s tr = restore_guesses t g s tr
  /\ match restore_guesses t g s tr with
     | Ok (_, s', tr') => pos_below (n + 258 * N.of_nat (List.length g)) s' /\ Forall hint_small tr'
     | _ => True
     end.
Proof.
  induction g as [|x g IH]; intros n s tr Hg Ht Hn HS; cbn [mc_restore_guesses restore_guesses List.length] in *.
  - split; [reflexivity|]. rewrite N.mul_0_r, N.add_0_r. auto.
  - destruct tr as [|h tr]; [auto|]. inversion Hg as [|? ? Hx Hg']; subst. inversion Ht as [|? ? Hh Ht']; subst.
    assert (HW : forall m s', (m <= n + 258 * N.of_nat (S (List.length g)))%N -> pos_below m s' -> pos_below (n + 258 * N.of_nat (S (List.length g))) s')
      by (intros m s' Hm [A B]; split; [lia|exact B]).
    destruct h as [| |r]; cbn [obind].
    + destruct (feedback_ok n s x Hx ltac:(lia) HS) as [E P]. rewrite E. cbn [obind].
      destruct (IH (n + 258) (feedback t s x) tr Hg' Ht' ltac:(lia) P) as [E2 P2]. rewrite E2. split; [reflexivity|].
      destruct (restore_guesses t g (feedback t s x) tr) as [[[l s2] tr2]| | |]; cbn [obind]; auto. destruct P2 as [P2 P3]. split; [|exact P3].
      eapply HW; [|exact P2]. lia.
    + destruct (byte_at t (sc_pos s)) as [b| | |]; cbn [obind]; auto.
      destruct (feedback_ok n s (Literal b) I ltac:(lia) HS) as [E P]. rewrite E. cbn [obind]. split; [reflexivity|]. split; [|exact Ht']. eapply HW; [|exact P]. lia.
    + destruct (feedback_ok n s (Reference r) Hh ltac:(lia) HS) as [E P]. rewrite E. cbn [obind]. split; [reflexivity|]. split; [|exact Ht']. eapply HW; [|exact P]. lia.
Qed.

Lemma restore_loop_ok fuel : forall s tr, started s -> Forall hint_small tr -> mc_restore_loop bd fuel t s tr = restore_loop fuel t s tr.
Proof.
  induction fuel as [|fuel IH]; intros s tr HS Ht; [reflexivity|]. cbn [mc_restore_loop restore_loop]. rewrite more_ok. cbn [obind].
  destruct (more_data t s) eqn:EM; [|auto]. pose proof (more_small s EM HS) as HP. clear HS.
  destruct (codes_ok s) as [E P]; [apply HP|apply HP|]. rewrite E. destruct (sc_codes t s) as [g| | |]; cbn [obind]; auto.
  destruct g as [|g0 g']; [auto|]. set (g := g0 :: g') in *. clearbody g. destruct P as [PG PL].
  assert (W : 2 ^ 61 = 2305843009213693952) by reflexivity. assert (W2 : 2 ^ 62 = 4611686018427387904) by reflexivity.
  destruct (restore_guesses_ok g (2 ^ 61) s tr PG Ht ltac:(lia) HP) as [E2 P2]. rewrite E2.
  destruct (restore_guesses t g s tr) as [[[l s2] tr2]| | |]; cbn [obind]; auto. destruct P2 as [P2 P3].
  rewrite IH; [reflexivity|destruct P2; split; [lia|assumption]|exact P3].
Qed.
Lemma restore_ok tr : Forall hint_small tr -> mc_restore bd tr t = restore tr t.
Proof. intro H. apply restore_loop_ok; [exact scanner_started|exact H]. Qed.

Lemma validate_ok cs : Forall code_small cs -> mc_validate bd cs t = validate cs t /\ match validate cs t with Ok l => Forall hint_small l | _ => True end.
Proof.
  intro H. unfold mc_validate, validate. destruct (trace_ok cs H) as [E P]. rewrite E. destruct (trace cs t) as [tr| | |]; cbn [obind]; auto.
  rewrite restore_ok by exact P. split; [reflexivity|]. destruct (restore tr t); cbn [obind]; auto. destruct (slice_eqb _ _ _); auto.
Qed.
End Tech.

(** ** The trace format *)
Lemma corrects_loop_ok fuel : forall c, mc_write_corrects_loop bd fuel max_representable c = write_corrects_loop fuel c
  /\ match write_corrects_loop fuel c with Ok (_, c') => c' <= max_representable | _ => True end.
Proof.
  induction fuel as [|fuel IH]; intro c; [cbn; auto|]. cbn [mc_write_corrects_loop write_corrects_loop].
  destruct (N.ltb_spec max_representable c); [|auto].
  rewrite add_ok by (change (2 ^ 16) with 65536; unfold max_representable, representation_offset; lia). cbn [obind]. rewrite sub_ok by lia. cbn [obind].
  destruct (IH (c - max_representable)) as [E P]. rewrite E. split; [reflexivity|]. destruct (write_corrects_loop fuel _) as [[l c']| | |]; cbn [obind]; auto.
Qed.
Lemma corrects_ok c : mc_write_corrects bd c = write_corrects c.
Proof.
  unfold mc_write_corrects, write_corrects. rewrite sub_ok by (unfold representation_offset; lia). cbn [obind].
  change (65535 - representation_offset) with max_representable. set (f := S _). clearbody f. destruct (corrects_loop_ok f c) as [E P]. rewrite E.
  destruct (write_corrects_loop f c) as [[l c']| | |]; cbn [obind]; auto. destruct (c' =? 0); [reflexivity|]. destruct (65535 <? c'); [reflexivity|].
  unfold max_representable, representation_offset in *. rewrite add_ok by (change (2 ^ 16) with 65536; lia). cbn [obind].
  destruct (N.ltb_spec 65535 (32768 + c')); [lia|reflexivity].
Qed.
Lemma take_small l : Forall hint_small l -> Forall hint_small (snd (take_corrects l)).
Proof.
  induction 1 as [|h l Hh Hl IH]; [constructor|]. cbn [take_corrects]. destruct h; cbn [snd]; try (now constructor).
  destruct (take_corrects l) as [n r]. cbn [snd] in *. exact IH.
Qed.
Lemma write_loop_ok fuel : forall l, Forall hint_small l -> mc_write_loop bd fuel l = write_loop fuel l.
Proof.
  induction fuel as [|fuel IH]; intros l H; [reflexivity|]. cbn [mc_write_loop write_loop]. destruct H as [|h l Hh Hl]; [reflexivity|].
  destruct h as [| |r].
  - pose proof (take_small (Correct :: l) ltac:(now constructor)) as HT. destruct (take_corrects (Correct :: l)) as [n r]. cbn [snd] in HT.
    rewrite corrects_ok. destruct (write_corrects n); cbn [obind]; [|reflexivity..]. now rewrite IH.
  - now rewrite IH.
  - cbn [hint_small] in Hh. rewrite run_ok by exact Hh. cbn [obind]. rewrite sub_ok by (unfold r_run; lia). cbn [obind]. now rewrite IH.
Qed.
Lemma st_write_ok l : Forall hint_small l -> mc_st_write bd l = st_write l.
Proof. apply write_loop_ok. Qed.

(** Written traces are bytes. *)
Lemma ok_inv {A} (a b : A) : Ok a = Ok b -> a = b.
Proof. congruence. Qed.
Lemma le16_bytes v : v < 65536 -> bytes_ok (le16 v).
Proof. intro H. unfold le16. apply Forall_cons; [|apply Forall_cons; [|apply Forall_nil]]; unfold is_byte; lia. Qed.
Lemma corrects_bytes fuel : forall c l c', write_corrects_loop fuel c = Ok (l, c') -> bytes_ok l.
Proof.
  induction fuel as [|fuel IH]; intros c l c' E; [discriminate E|]. cbn [write_corrects_loop] in E. destruct (_ <? _); [|injection E as <- <-; constructor].
  destruct (write_corrects_loop fuel _) as [[l2 c2]| | |] eqn:E2; cbn [obind] in E; try discriminate E. inversion E; subst l c'.
  apply (proj2 (Forall_app _ (le16 65535) l2)). split; [now apply le16_bytes|exact (IH _ _ _ E2)].
Qed.
Lemma write_loop_bytes fuel : forall l b, Forall hint_small l -> write_loop fuel l = Ok b -> bytes_ok b.
Proof.
  induction fuel as [|fuel IH]; intros l b H E; [discriminate E|]. cbn [write_loop] in E. destruct H as [|h l Hh Hl]; [injection E as <-; constructor|].
  destruct h as [| |r].
  - pose proof (take_small (Correct :: l) ltac:(now constructor)) as HT. destruct (take_corrects (Correct :: l)) as [n r]. cbn [snd] in HT.
    destruct (write_corrects n) as [b1| | |] eqn:E1; cbn [obind] in E; try discriminate E. destruct (write_loop fuel r) eqn:E2; cbn [obind] in E; try discriminate E.
    injection E as <-. apply Forall_app. split; [|exact (IH _ _ HT E2)]. unfold write_corrects in E1. set (f := S _) in E1. clearbody f.
    destruct (write_corrects_loop f n) as [[l1 c1]| | |] eqn:E3; cbn [obind] in E1; try discriminate E1. destruct (c1 =? 0); [discriminate E1|].
    destruct (65535 <? c1); [discriminate E1|]. destruct (N.ltb_spec 65535 (representation_offset + c1)); [discriminate E1|]. apply ok_inv in E1. rewrite <- E1.
    apply Forall_app. split; [exact (corrects_bytes _ _ _ _ E3)|]. apply le16_bytes.
    lia.
  - destruct (write_loop fuel l) eqn:E2; cbn [obind] in E; try discriminate E. inversion E; subst b. apply (proj2 (Forall_app _ (le16 0) a)). split; [now apply le16_bytes|exact (IH _ _ Hl E2)].
  - destruct (write_loop fuel l) eqn:E2; cbn [obind] in E; try discriminate E. inversion E; subst b. apply (proj2 (Forall_app _ (le16 (r_dist r)) _)). split; [apply le16_bytes; apply Hh|].
    constructor; [apply N.mod_lt; discriminate|exact (IH _ _ Hl E2)].
Qed.

Lemma exact_bytes n s : bytes_ok (rest s) ->
  bytes_ok (rest (snd (read_exact n s))) /\ match fst (read_exact n s) with Ok b => bytes_ok b | _ => True end.
Proof.
  intro H. destruct (q_exact (List.length (rest s)) n s) as [_ P]; [split; [exact H|lia]|].
  unfold read_exact in *. destruct (Nat.leb n (List.length (rest s))); cbn [fst snd rest] in *; [split; apply P|split; [constructor|exact I]].
Qed.
Lemma nth_byte b i : bytes_ok b -> nth i b 0 < 256.
Proof. exact (bytes_ok_nth i b). Qed.

Lemma read_loop_ok fuel : forall s, bytes_ok (rest s) -> mc_read_loop bd fuel s = read_loop fuel s.
Proof.
  induction fuel as [|fuel IH]; intros s H; [reflexivity|]. cbn [mc_read_loop read_loop]. destruct (exact_bytes 2 s H) as [H1 H2].
  destruct (read_exact 2 s) as [o s1]. cbn [fst snd] in *. destruct o as [buf|e|m|]; [|reflexivity..]. set (first := nth 0 buf 0 + 256 * nth 1 buf 0). clearbody first.
  destruct (0 =? first); [unfold bind; now rewrite IH|]. destruct (N.leb_spec first 32768).
  - unfold bind. destruct (exact_bytes 1 s1 H1) as [H3 H4]. destruct (read_exact 1 s1) as [o s2]. cbn [fst snd] in *.
    destruct o as [b|e|m|]; [|reflexivity..]. pose proof (nth_byte b 0 H4). rewrite add_ok by (change (2 ^ 16) with 65536; lia). cbn [lift].
    rewrite ref_new_ok. unfold lift. destruct (Ref_new _ _); [now rewrite IH|reflexivity..].
  - unfold bind. rewrite sub_ok by lia. cbn [lift]. now rewrite IH.
Qed.
Lemma st_read_ok s : bytes_ok (rest s) -> mc_st_read bd s = st_read s.
Proof. apply read_loop_ok. Qed.
Lemma st_verify_ok l : Forall hint_small l -> mc_st_verify bd l = st_verify l.
Proof.
  intro H. unfold mc_st_verify, st_verify. rewrite st_write_ok by exact H. destruct (st_write l) as [d| | |] eqn:E; cbn [obind]; [|reflexivity..].
  rewrite st_read_ok; [reflexivity|]. exact (write_loop_bytes _ _ _ H E).
Qed.

(** ** tracer.rs *)
Lemma config_ok level : mc_Config_gzip bd level = Config_gzip level.
Proof.
  unfold mc_Config_gzip, Config_gzip. destruct (N.leb_spec 1 level); cbn [andb]; [|reflexivity]. destruct (level <=? 9); [|reflexivity].
  now rewrite sub_ok by lia.
Qed.
Lemma sixteen_fields preroll data limit a : with_sixteen preroll data limit = Ok a -> ar_preroll a = preroll /\ ar_data a = data.
Proof. unfold with_sixteen. destruct (from_window _ _); cbn [obind]; try discriminate. intro E. injection E as <-. auto. Qed.
Lemma tracer_try_ok config preroll data cs : small (List.length preroll + List.length data) -> Forall code_small cs ->
  mc_tracer_try bd config preroll data cs = tracer_try config preroll data cs.
Proof.
  intros HL H. unfold mc_tracer_try, tracer_try. rewrite sixteen_ok by exact HL. set (limit := match _ with Some l => l | None => _ end). clearbody limit.
  destruct (with_sixteen preroll data limit) as [a| | |] eqn:EA; cbn [obind]; [|reflexivity..]. destruct (sixteen_fields _ _ _ _ EA) as [EP ED].
  destruct (validate_ok (mkTechnique config a)) with (cs := cs) as [E P]; [unfold ar_data_len; cbn [t_refs]; now rewrite EP, ED|exact H|].
  rewrite E. destruct (validate cs _) as [tr| | |]; cbn [obind]; [|reflexivity..]. now rewrite st_verify_ok.
Qed.
Lemma try_gzip_ok level preroll data cs : small (List.length preroll + List.length data) -> Forall code_small cs ->
  mc_try_gzip bd level preroll data cs = try_gzip level preroll data cs.
Proof.
  intros HL H. unfold mc_try_gzip, try_gzip. rewrite config_ok. destruct (Config_gzip level); cbn [obind]; [|reflexivity..]. now apply tracer_try_ok.
Qed.

End S.
