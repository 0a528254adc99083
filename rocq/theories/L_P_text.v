(** Proofs of C69: the printed text determines what was printed. *)
From Verif Require Import Base M_bit M_lib M_code_tree M_huffman M_gzip M_parse M_all_refs M_debug M_dump M_text Spec Clients Clients_file Clients_debug
  L_bits L_parse L_P_huff L_P_parse L_P_gzip L_P_file L_P_debug L_P_e2e.
From Coq Require Decimal DecimalN.
From Coq Require Import ZArith ZifyBool ZifyNat ZifyN.
Ltac Zify.zify_post_hook ::= Z.div_mod_to_equations.
Local Open Scope N_scope.
Local Open Scope model_scope.

Lemma Ok_inj {A} (a b : A) : Ok a = Ok b -> a = b.
Proof. now intros [= ->]. Qed.

(** ** Numbers *)
Definition is_digit (c : N) : Prop := 48 <= c <= 57.
Definition no_digit (x : list N) : Prop := match x with [] => True | c :: _ => ~ is_digit c end.

Lemma digits_inj u : forall v x y, no_digit x -> no_digit y -> digits u ++ x = digits v ++ y -> u = v /\ x = y.
Proof.
  assert (ND : forall c l, is_digit c -> no_digit (c :: l) -> False) by (intros c l H1 H2; exact (H2 H1)).
  induction u; intros v x y HX HY E; destruct v; cbn [digits app] in E; try discriminate E; try (split; [reflexivity|exact E]);
    try (subst x; apply ND in HX; [contradiction|unfold is_digit; lia]); try (subst y; apply ND in HY; [contradiction|unfold is_digit; lia]);
    injection E as E; destruct (IHu _ _ _ HX HY E) as [-> ->]; auto.
Qed.

Lemma decimal_inj n m x y : no_digit x -> no_digit y -> decimal n ++ x = decimal m ++ y -> n = m /\ x = y.
Proof. intros HX HY E. destruct (digits_inj _ _ _ _ HX HY E) as [H ->]. split; [now apply DecimalN.Unsigned.to_uint_inj|reflexivity]. Qed.

Lemma decimal_digits n : Forall is_digit (decimal n).
Proof. unfold decimal. induction (N.to_uint n); cbn [digits]; constructor; try assumption; unfold is_digit; lia. Qed.

Lemma hex_digit_inj a b : a < 16 -> b < 16 -> hex_digit a = hex_digit b -> a = b.
Proof. unfold hex_digit. intros. destruct (N.ltb_spec a 10), (N.ltb_spec b 10); lia. Qed.

Lemma hex2_inj a b x y : a < 256 -> b < 256 -> hex2 a ++ x = hex2 b ++ y -> a = b /\ x = y.
Proof.
  intros HA HB E. unfold hex2 in E. cbn [app] in E. injection E as E1 E2 E3.
  apply hex_digit_inj in E1; [|lia..]. apply hex_digit_inj in E2; [|lia..]. split; [lia|assumption].
Qed.

Lemma hex4_inj a b x y : a < 65536 -> b < 65536 -> hex4 a ++ x = hex4 b ++ y -> a = b /\ x = y.
Proof.
  intros HA HB E. unfold hex4 in E. rewrite <- !app_assoc in E. apply hex2_inj in E; [|lia..]. destruct E as [E1 E2].
  apply hex2_inj in E2; [|lia..]. destruct E2 as [E2 ->]. split; [lia|reflexivity].
Qed.

(** ** Characters: prefix-free, and on one line *)
Definition below256 : list N := map N.of_nat (seq 0 256).
Lemma below256_in c : c < 256 -> In c below256.
Proof. intro H. unfold below256. apply in_map_iff. exists (N.to_nat c). rewrite in_seq. lia. Qed.

Fixpoint is_prefix (a b : list N) : bool :=
  match a, b with [], _ => true | x :: a', y :: b' => (x =? y) && is_prefix a' b' | _, _ => false end.
Lemma is_prefix_app a : forall b x y, a ++ x = b ++ y -> is_prefix a b = true \/ is_prefix b a = true.
Proof.
  induction a as [|c a IH]; intros [|d b] x y E; cbn [is_prefix]; auto. cbn [app] in E. injection E as -> E. rewrite N.eqb_refl. cbn [andb]. eapply IH, E.
Qed.

Lemma char_sweep : forallb (fun a => negb (existsb (N.eqb 10) (char_debug a)) && forallb (fun b => negb (is_prefix (char_debug a) (char_debug b)) || (a =? b)) below256) below256 = true.
Proof. vm_compute. reflexivity. Qed.

Lemma char_debug_inj a b x y : a < 256 -> b < 256 -> char_debug a ++ x = char_debug b ++ y -> a = b /\ x = y.
Proof.
  intros HA HB E. assert (S := char_sweep). rewrite forallb_forall in S.
  assert (P : forall a b, a < 256 -> b < 256 -> is_prefix (char_debug a) (char_debug b) = true -> a = b).
  { intros a' b' H1 H2 HP. specialize (S a' (below256_in _ H1)). apply andb_prop in S. destruct S as [_ S]. rewrite forallb_forall in S.
    specialize (S b' (below256_in _ H2)). rewrite HP in S. cbn [negb orb] in S. now apply N.eqb_eq. }
  assert (EQ : a = b) by (destruct (is_prefix_app _ _ _ _ E) as [H|H]; [auto|symmetry; auto]). subst b. split; [reflexivity|]. now apply app_inv_head in E.
Qed.

Lemma char_debug_line c : c < 256 -> ~ In 10 (char_debug c).
Proof.
  intros H HI. assert (S := char_sweep). rewrite forallb_forall in S. specialize (S c (below256_in _ H)). apply andb_prop in S. destruct S as [S _].
  assert (X : existsb (N.eqb 10) (char_debug c) = true) by (apply existsb_exists; exists 10; split; [exact HI|reflexivity]). rewrite X in S. discriminate.
Qed.

(** ** Unambiguous printing *)
Definition unamb {A} (P : A -> Prop) (f : A -> list N) : Prop :=
  forall a b x y, P a -> P b -> f a ++ x = f b ++ y -> a = b /\ x = y.

Lemma ref_debug_inj : unamb (fun _ => True) ref_debug.
Proof.
  intros [d1 l1] [d2 l2] x y _ _ E. unfold ref_debug in E. cbn [r_dist] in E. rewrite <- !app_assoc in E. apply app_inv_head in E.
  apply decimal_inj in E; [|cbn; unfold is_digit; lia..]. destruct E as [-> E]. apply app_inv_head in E.
  apply decimal_inj in E; [|cbn; unfold is_digit; lia..]. destruct E as [E1 E]. apply app_inv_head in E. unfold r_run in E1. cbn [r_run_minus_3] in E1. split; [f_equal; lia|exact E].
Qed.

Lemma code_debug_inj : unamb literal_byte code_debug.
Proof.
  intros [b1|[d1 l1]] [b2|[d2 l2]] x y P1 P2 E; unfold code_debug in E; cbn [r_dist literal_byte] in *; rewrite <- ?app_assoc in E; try discriminate E.
  - apply app_inv_head in E. apply hex2_inj in E; [|assumption..]. destruct E as [-> E]. apply app_inv_head in E. apply app_inv_head in E. apply app_inv_head in E. auto.
  - apply app_inv_head in E. apply decimal_inj in E; [|cbn; unfold is_digit; lia..]. destruct E as [-> E]. apply app_inv_head in E.
    apply decimal_inj in E; [|cbn; unfold is_digit; lia..]. destruct E as [E1 E]. apply app_inv_head in E. unfold r_run in E1. cbn [r_run_minus_3] in E1. split; [do 2 f_equal; lia|exact E].
Qed.

Lemma trace_debug_inj : unamb (fun _ => True) trace_debug.
Proof.
  intros [| |r1] [| |r2] x y P1 P2 E; unfold trace_debug in E; try discriminate E.
  - apply app_inv_head in E. auto.
  - apply app_inv_head in E. auto.
  - destruct (ref_debug_inj _ _ _ _ I I E) as [-> ->]. auto.
Qed.

Lemma list_debug_from_inj {A} P (f : A -> list N) : unamb P f ->
  forall a b x y, Forall P a -> Forall P b -> list_debug_from f a ++ x = list_debug_from f b ++ y -> a = b /\ x = y.
Proof.
  intro U. induction a as [|h a IH]; intros [|h' b] x y PA PB E; cbn [list_debug_from] in E; rewrite <- ?app_assoc in E; try discriminate E.
  - apply app_inv_head in E. auto.
  - inversion PA; inversion PB; subst. apply app_inv_head in E. destruct (U _ _ _ _ H1 H5 E) as [-> E2]. destruct (IH _ _ _ H2 H6 E2) as [-> ->]. auto.
Qed.

Lemma list_debug_inj {A} P (f : A -> list N) : unamb P f -> (forall a, P a -> forall x, hd 0 (f a ++ x) <> 93) -> unamb (Forall P) (list_debug f).
Proof.
  intros U NB a b x y PA PB E. unfold list_debug in E. destruct a as [|h a], b as [|h' b]; rewrite <- ?app_assoc in E.
  - apply app_inv_head in E. auto.
  - inversion PB; subst. change (text "[]") with (text "[" ++ text "]") in E. rewrite <- app_assoc in E. apply app_inv_head in E.
    destruct (NB h' H1 (list_debug_from f b ++ y)). rewrite <- E. reflexivity.
  - inversion PA; subst. change (text "[]") with (text "[" ++ text "]") in E. rewrite <- app_assoc in E. apply app_inv_head in E.
    destruct (NB h H1 (list_debug_from f a ++ x)). rewrite E. reflexivity.
  - inversion PA; inversion PB; subst. apply app_inv_head in E. destruct (U _ _ _ _ H1 H5 E) as [-> E2].
    destruct (list_debug_from_inj P f U _ _ _ _ H2 H6 E2) as [-> ->]. auto.
Qed.

Lemma C69_lemma_codes : forall a b, Forall literal_byte a -> Forall literal_byte b -> list_debug code_debug a = list_debug code_debug b -> a = b.
Proof.
  intros a b HA HB E. assert (U := list_debug_inj literal_byte code_debug code_debug_inj ltac:(intros [?|?] _ x; cbn; discriminate)).
  apply (U a b [] [] HA HB). now rewrite !app_nil_r.
Qed.

Lemma C69_lemma_hints : forall a b, list_debug trace_debug a = list_debug trace_debug b -> a = b.
Proof.
  intros a b E. assert (U := list_debug_inj (fun _ => True) trace_debug trace_debug_inj ltac:(intros [| |?] _ x; cbn; discriminate)).
  apply (U a b [] []); [apply Forall_forall; auto..|]. now rewrite !app_nil_r.
Qed.

Lemma C69_lemma_keys : forall a b, k0 a < 256 -> k1 a < 256 -> k2 a < 256 -> k0 b < 256 -> k1 b < 256 -> k2 b < 256 -> key_debug a = key_debug b -> a = b.
Proof.
  intros [a0 a1 a2] [c0 c1 c2] A0 A1 A2 C0 C1 C2 E. unfold key_debug in E. cbn [k0 k1 k2] in *.
  assert (D : forall c, normal_char c = true -> char_display c = [c]) by (intros c H; unfold normal_char, char_display in *; destruct (N.ltb_spec c 128); [reflexivity|lia]).
  destruct (normal_char a0 && normal_char a1 && normal_char a2) eqn:NA, (normal_char c0 && normal_char c1 && normal_char c2) eqn:NC; try discriminate E.
  - apply andb_prop in NA. destruct NA as [NA NA2]. apply andb_prop in NA. destruct NA as [NA0 NA1].
    apply andb_prop in NC. destruct NC as [NC NC2]. apply andb_prop in NC. destruct NC as [NC0 NC1]. rewrite !D in E by assumption. cbn [app] in E. congruence.
  - rewrite <- (app_nil_r (char_debug a2)), <- (app_nil_r (char_debug c2)) in E.
    apply char_debug_inj in E; [|assumption..]. destruct E as [-> E]. apply char_debug_inj in E; [|assumption..]. destruct E as [-> E].
    apply char_debug_inj in E; [|assumption..]. destruct E as [-> _]. reflexivity.
Qed.

Lemma C69_lemma_plain_keys : forall k, key_debug k = [34; k0 k; k1 k; k2 k; 34] <-> (33 <= k0 k <= 126 /\ 33 <= k1 k <= 126 /\ 33 <= k2 k <= 126).
Proof.
  intros [a b c]. unfold key_debug. cbn [k0 k1 k2].
  assert (D : forall c, normal_char c = true <-> 33 <= c <= 126) by (intro x; unfold normal_char; lia).
  destruct (normal_char a && normal_char b && normal_char c) eqn:E.
  - rewrite !andb_true_iff, !D in E. destruct E as [[Ea Eb] Ec]. split; [auto|]. intros _. unfold char_display.
    rewrite (proj2 (N.ltb_lt a 128)), (proj2 (N.ltb_lt b 128)), (proj2 (N.ltb_lt c 128)) by lia. reflexivity.
  - split; [discriminate|]. intros (Ea & Eb & Ec). rewrite (proj2 (D a) Ea), (proj2 (D b) Eb), (proj2 (D c) Ec) in E. discriminate E.
Qed.

(** ** Bit vectors *)
Definition no_bit (x : list N) : Prop := match x with [] => True | c :: _ => c <> 48 /\ c <> 49 end.
Lemma bits_text_inj a : forall b x y, no_bit x -> no_bit y -> bits_text a ++ x = bits_text b ++ y -> a = b /\ x = y.
Proof.
  induction a as [|[|] a IH]; intros [|[|] b] x y HX HY E; cbn [bits_text map app] in E; try discriminate E; auto;
    try (exfalso; first [rewrite E in HX | rewrite <- E in HY]; cbn [no_bit] in *; tauto);
    injection E as E; destruct (IH _ _ _ HX HY E) as [-> ->]; auto.
Qed.

Lemma bitvec_text bits : bitvec_debug (bitvec_of bits) = Ok (text "BitVec: " ++ decimal (N.of_nat (List.length bits)) ++ text ": " ++ bits_text bits).
Proof. unfold bitvec_debug, bv_debug. rewrite bv_to_list_spec. reflexivity. Qed.

Lemma C69_lemma_bits : forall v w dv dw t, bv_debug v = Ok dv -> bv_debug w = Ok dw -> bitvec_debug v = Ok t -> bitvec_debug w = Ok t -> dv = dw.
Proof.
  intros v w [n1 l1] [n2 l2] t E1 E2 E3 E4. unfold bitvec_debug in *. rewrite E1 in E3. rewrite E2 in E4. cbn [obind fst snd] in *. injection E3 as <-. injection E4 as E.
  apply decimal_inj in E; [|cbn; unfold is_digit; lia..]. destruct E as [EN E]. injection E as E. symmetry in E.
  rewrite <- (app_nil_r (bits_text l1)), <- (app_nil_r (bits_text l2)) in E. destruct (bits_text_inj _ _ [] [] I I E) as [-> _]. f_equal. lia.
Qed.

(** ** Trees *)
Definition symbol_ok (s : symbol_text) : Prop := match s with TByte b => b < 256 | _ => True end.
Lemma tree_lines_inj : unamb (fun l => symbol_ok (snd l)) (fun l : list bool * symbol_text => bits_text (fst l) ++ text " => " ++ symbol_debug (snd l) ++ [10]).
Proof.
  intros [p1 s1] [p2 s2] x y P1 P2 E. cbn [fst snd] in *. rewrite <- !app_assoc in E.
  apply bits_text_inj in E; [|cbn; lia..]. destruct E as [-> E]. apply app_inv_head in E.
  destruct s1 as [a| |n], s2 as [b| |m]; cbn [symbol_debug symbol_ok] in *; rewrite <- ?app_assoc in E; try discriminate E.
  - apply app_inv_head in E. apply hex2_inj in E; [|assumption..]. destruct E as [-> E]. do 3 apply app_inv_head in E. auto.
  - apply app_inv_head in E. apply app_inv_head in E. auto.
  - apply app_inv_head in E. apply decimal_inj in E; [|cbn; unfold is_digit; lia..]. destruct E as [-> E]. apply app_inv_head in E. auto.
Qed.

Lemma concat_inj {A} (P : A -> Prop) f : unamb P f -> (forall a, P a -> f a <> []) ->
  forall a b, Forall P a -> Forall P b -> List.concat (map f a) = List.concat (map f b) -> a = b.
Proof.
  intros U NE. induction a as [|h a IH]; intros [|h' b] PA PB E; cbn [map List.concat] in E; [reflexivity|..].
  - inversion PB; subst. symmetry in E. apply app_eq_nil in E. destruct E as [E _]. now destruct (NE h' H1).
  - inversion PA; subst. apply app_eq_nil in E. destruct E as [E _]. now destruct (NE h H1).
  - inversion PA; inversion PB; subst. destruct (U _ _ _ _ H1 H5 E) as [-> E2]. f_equal. now apply IH.
Qed.

Lemma node_debug_ok n : forall p, Forall (fun l => symbol_ok (snd l)) (node_debug p n).
Proof.
  induction n as [s|l IHl r IHr]; intro p; cbn [node_debug].
  - constructor; [|constructor]. cbn [snd]. unfold symbol_line. destruct (N.leb_spec s 255); [cbn; lia|]. destruct (s =? 256); exact I.
  - apply Forall_app. auto.
Qed.

Lemma C69_lemma_trees : forall lens1 lens2 t1 t2,
  N.of_nat (List.length lens1) <= 65536 -> N.of_nat (List.length lens2) <= 65536 ->
  tree_new lens1 = Ok t1 -> tree_new lens2 = Ok t2 -> tree_text t1 = tree_text t2 ->
  forall s, rfc_code lens1 s = rfc_code lens2 s.
Proof.
  intros lens1 lens2 t1 t2 L1 L2 E1 E2 E s.
  assert (ED : tree_debug t1 = tree_debug t2).
  { eapply (concat_inj (fun l => symbol_ok (snd l))); [apply tree_lines_inj| | | |exact E].
    - intros [p q] _ X. apply app_eq_nil in X. destruct X as [_ X]. discriminate.
    - apply Forall_app. split; apply node_debug_ok.
    - apply Forall_app. split; apply node_debug_ok. }
  destruct (C67_lemma_tree lens1 t1 L1 E1) as [_ H1]. destruct (C67_lemma_tree lens2 t2 L2 E2) as [_ H2]. rewrite ED in H1.
  assert (TX : exists v, shows v s /\ forall s', shows v s' -> s' = s).
  { unfold shows. destruct (N.ltb_spec s 256); [exists (TByte s)|destruct (N.eqb_spec s 256); [exists TEnd|exists (TOther (s - 256))]].
    - split; [now left|]. intros s' [[_ X]|[[_ X]|[_ X]]]; [now injection X|discriminate..].
    - split; [right; left; auto|]. intros s' [[_ X]|[[X _]|[_ X]]]; [discriminate|lia|discriminate].
    - split; [right; right; split; [lia|reflexivity]|]. intros s' [[_ X]|[[_ X]|[X0 X]]]; [discriminate..|injection X; lia]. }
  destruct TX as (v & HV & HU).
  destruct (rfc_code lens1 s) as [c|] eqn:R1.
  - assert (X := proj1 (H2 c v) (proj2 (H1 c v) (ex_intro _ s (conj R1 HV)))). destruct X as (s' & R2 & HS). now rewrite (HU _ HS) in R2.
  - destruct (rfc_code lens2 s) as [c|] eqn:R2; [|reflexivity].
    assert (X := proj1 (H1 c v) (proj2 (H2 c v) (ex_intro _ s (conj R2 HV)))). destruct X as (s' & R3 & HS). rewrite (HU _ HS), R1 in R3. discriminate.
Qed.

(** ** The position table *)
Lemma bm_lines_hash m hashes : Forall (fun h => h < 65536) hashes -> forall lines, bm_lines m hashes = Ok lines -> Forall (fun l => fst l < 65536) lines.
Proof.
  induction 1 as [|h hashes HH _ IH]; intros lines E; cbn [bm_lines] in E; [injection E as <-; constructor|].
  apply obind_ok in E. destruct E as (pos & _ & E). destruct (Nat.eqb 0 pos); [now apply IH|]. apply obind_ok in E. destruct E as (vals & _ & E). apply obind_ok in E.
  destruct E as (more & E & E2). injection E2 as <-. constructor; [exact HH|now apply IH].
Qed.

Lemma bm_debug_hash m lines : bm_debug m = Ok lines -> Forall (fun l => fst l < 65536) lines.
Proof.
  unfold bm_debug. assert (HN : N.of_nat (N.to_nat HASH_SIZE) < 65536) by (rewrite N2Nat.id; reflexivity).
  revert HN. generalize (N.to_nat HASH_SIZE). intros n HN. apply bm_lines_hash.
  apply Forall_forall. intros h HI. apply in_map_iff in HI. destruct HI as (k & <- & HK). apply in_seq in HK. lia.
Qed.

Lemma dec_nat_hd a x : hd 0 (decimal (N.of_nat a) ++ x) <> 93.
Proof.
  assert (H := decimal_digits (N.of_nat a)). assert (NN : decimal (N.of_nat a) <> []).
  { unfold decimal. intro E. destruct (N.to_uint (N.of_nat a)) eqn:EU; try discriminate. assert (Y := DecimalN.Unsigned.of_to (N.of_nat a)). rewrite EU in Y.
    cbn in Y. rewrite <- Y in EU. discriminate. }
  destruct (decimal (N.of_nat a)) as [|d l]; [contradiction|]. inversion H; subst. cbn [app hd]. unfold is_digit in *. lia.
Qed.

(** Numbers in a list end at the comma or bracket. *)
Lemma nats_from_inj a : forall b x y, list_debug_from (fun n => decimal (N.of_nat n)) a ++ x = list_debug_from (fun n => decimal (N.of_nat n)) b ++ y -> a = b /\ x = y.
Proof.
  assert (ND : forall l x, no_digit (list_debug_from (fun n => decimal (N.of_nat n)) l ++ x)) by (intros [|? ?] x; cbn; unfold is_digit; lia).
  induction a as [|h a IH]; intros [|h' b] x y E; cbn [list_debug_from] in E; rewrite <- ?app_assoc in E; try discriminate E.
  - apply app_inv_head in E. auto.
  - apply app_inv_head in E. apply decimal_inj in E; [|apply ND..]. destruct E as [E1 E]. destruct (IH _ _ _ E) as [-> ->]. split; [f_equal; lia|reflexivity].
Qed.
Lemma nats_inj : unamb (fun _ => True) (list_debug (fun n => decimal (N.of_nat n))).
Proof.
  assert (ND : forall l x, no_digit (list_debug_from (fun n => decimal (N.of_nat n)) l ++ x)) by (intros [|? ?] x; cbn; unfold is_digit; lia).
  intros a b x y _ _ E. unfold list_debug in E. destruct a as [|h a], b as [|h' b]; rewrite <- ?app_assoc in E.
  - apply app_inv_head in E. auto.
  - change (text "[]") with (text "[" ++ text "]") in E. rewrite <- app_assoc in E. apply app_inv_head in E. 
    destruct (dec_nat_hd h' (list_debug_from (fun n => decimal (N.of_nat n)) b ++ y)). rewrite <- E. reflexivity.
  - change (text "[]") with (text "[" ++ text "]") in E. rewrite <- app_assoc in E. apply app_inv_head in E.
    destruct (dec_nat_hd h (list_debug_from (fun n => decimal (N.of_nat n)) a ++ x)). rewrite E. reflexivity.
  - apply app_inv_head in E. apply decimal_inj in E; [|apply ND..]. destruct E as [E1 E]. destruct (nats_from_inj _ _ _ _ E) as [-> ->]. split; [f_equal; lia|reflexivity].
Qed.

Lemma table_text_ok m l : bm_debug m = Ok l ->
  table_text m = Ok (List.concat (map (fun l => text " - " ++ hex4 (fst l) ++ text ": " ++ list_debug (fun n => decimal (N.of_nat n)) (snd l) ++ [10]) l)).
Proof. intro E. unfold table_text. rewrite E. reflexivity. Qed.

Lemma table_text_det : forall m1 m2 l1 l2 t, bm_debug m1 = Ok l1 -> bm_debug m2 = Ok l2 -> table_text m1 = Ok t -> table_text m2 = Ok t -> l1 = l2.
Proof.
  intros m1 m2 l1 l2 t E1 E2 T1 T2. assert (E := eq_trans (eq_trans (eq_sym (table_text_ok m1 l1 E1)) T1) (eq_sym (eq_trans (eq_sym (table_text_ok m2 l2 E2)) T2))). apply Ok_inj in E.
  eapply (concat_inj (fun l => fst l < 65536)); [| | | |exact E].
  - intros [h1 v1] [h2 v2] x y P1 P2 E'. cbn [fst snd] in *. rewrite <- !app_assoc in E'. apply app_inv_head in E'. apply hex4_inj in E'; [|assumption..]. destruct E' as [-> E'].
    apply app_inv_head in E'. destruct (nats_inj _ _ _ _ I I E') as [-> E2']. apply app_inv_head in E2'. auto.
  - intros [h v] _ X. discriminate.
  - exact (bm_debug_hash m1 l1 E1).
  - exact (bm_debug_hash m2 l2 E2).
Qed.

Lemma C69_lemma_tables : forall preroll1 data1 preroll2 data2,
  let w1 := preroll1 ++ data1 in
  let w2 := preroll2 ++ data2 in
  exists m1 m2 t1 t2, from_window preroll1 data1 = Ok m1 /\ from_window preroll2 data2 = Ok m2
    /\ table_text m1 = Ok t1 /\ table_text m2 = Ok t2
    /\ (t1 = t2 -> forall hash, filter (fun q => hash3 w1 q =? hash) (seq 1 (List.length w1 - 3)) = filter (fun q => hash3 w2 q =? hash) (seq 1 (List.length w2 - 3))).
Proof.
  intros p1 d1 p2 d2 w1 w2. destruct (C67_lemma_table p1 d1) as (m1 & l1 & F1 & E1 & _ & H1). destruct (C67_lemma_table p2 d2) as (m2 & l2 & F2 & E2 & _ & H2).
  fold w1 in H1. fold w2 in H2. eexists m1, m2, _, _. split; [exact F1|]. split; [exact F2|]. split; [exact (table_text_ok m1 l1 E1)|]. split; [exact (table_text_ok m2 l2 E2)|].
  intros E hash. assert (L : l1 = l2).
  { eapply table_text_det; [exact E1|exact E2|exact (table_text_ok m1 l1 E1)|]. rewrite E. exact (table_text_ok m2 l2 E2). }
  subst l2. set (f1 := filter _ (seq 1 (List.length w1 - 3))) in *. set (f2 := filter _ (seq 1 (List.length w2 - 3))) in *.
  destruct (list_eq_dec Nat.eq_dec f1 []) as [N1|N1].
  - destruct (list_eq_dec Nat.eq_dec f2 []) as [N2|N2]; [congruence|]. exfalso. assert (X := proj2 (H2 hash f2) (conj eq_refl N2)). apply H1 in X. destruct X as [X _]. fold f1 in X. congruence.
  - assert (X := proj2 (H1 hash f1) (conj eq_refl N1)). apply H2 in X. destruct X as [X _]. exact X.
Qed.

(** ** dump *)
Definition line_ok (l : dump_line) : Prop :=
  match l with DLit c => c < 256 | DDynamic v => exists bits, v = bitvec_of bits | _ => True end.

Lemma line_text l : line_ok l -> exists t, dump_line_text l = Ok t.
Proof. destruct l; cbn [line_ok dump_line_text]; eauto. intros (bits & ->). rewrite bitvec_text. cbn [obind]. eauto. Qed.

Lemma nth_differs {A} k (d : A) l1 l2 : nth k l1 d <> nth k l2 d -> l1 <> l2.
Proof. intros H ->. now apply H. Qed.

Lemma line_text_inj l1 l2 t1 t2 x y : line_ok l1 -> line_ok l2 -> dump_line_text l1 = Ok t1 -> dump_line_text l2 = Ok t2 ->
  t1 ++ 10 :: x = t2 ++ 10 :: y -> l1 = l2 /\ x = y.
Proof.
  intros P1 P2 E1 E2 E.
  assert (D1 : forall v t, line_ok (DDynamic v) -> dump_line_text (DDynamic v) = Ok t ->
     exists bits, v = bitvec_of bits /\ t = text " - dynamic huffman: " ++ text "BitVec: " ++ decimal (N.of_nat (List.length bits)) ++ text ": " ++ bits_text bits).
  { intros v t (bits & ->) H. cbn [dump_line_text] in H. rewrite bitvec_text in H. exists bits. split; [reflexivity|]. cbn [obind] in H. now injection H. }
  destruct l1, l2; try (destruct (D1 _ _ P1 E1) as (bits1 & -> & ->)); try (destruct (D1 _ _ P2 E2) as (bits2 & -> & ->)); clear D1;
    cbn [dump_line_text] in E1, E2; rewrite ?bitvec_text in E1; rewrite ?bitvec_text in E2;
    try (apply Ok_inj in E1; subst t1); try (apply Ok_inj in E2; subst t2);
    rewrite <- ?app_assoc in E;
    try discriminate E;
    try (exfalso; revert E; apply (nth_differs 3 0); discriminate);
    try (exfalso; revert E; apply (nth_differs 6 0); discriminate).
  - apply app_inv_head in E. apply decimal_inj in E; [|cbn; unfold is_digit; lia..]. destruct E as [E0 E]. apply app_inv_head in E. injection E as E. split; [f_equal; lia|exact E].
  - apply app_inv_head in E. apply decimal_inj in E; [|cbn; unfold is_digit; lia..]. destruct E as [E0 E]. apply app_inv_head in E. injection E as E. split; [f_equal; lia|exact E].
  - apply app_inv_head in E. injection E as E. auto.
  - apply app_inv_head in E. apply app_inv_head in E. apply decimal_inj in E; [|cbn; unfold is_digit; lia..]. destruct E as [E0 E]. apply app_inv_head in E.
    apply bits_text_inj in E; [|cbn; lia..]. destruct E as [-> E]. injection E as E. auto.
  - cbn [line_ok] in *. apply app_inv_head in E. apply hex2_inj in E; [|assumption..]. destruct E as [-> E]. apply app_inv_head in E. apply app_inv_head in E. injection E as E. auto.
  - apply app_inv_head in E. apply decimal_inj in E; [|cbn; unfold is_digit; lia..]. destruct E as [-> E]. apply app_inv_head in E.
    apply decimal_inj in E; [|cbn; unfold is_digit; lia..]. destruct E as [-> E]. apply app_inv_head in E. injection E as E. auto.
Qed.

Lemma dump_text_ok lines : Forall line_ok lines -> exists t, dump_text lines = Ok t.
Proof.
  induction 1 as [|l lines HL _ (t & E)]; cbn [dump_text]; [eauto|]. destruct (line_text l HL) as (t1 & E1). rewrite E1. cbn [obind]. rewrite E. cbn [obind]. eauto.
Qed.

Lemma dump_text_inj a : forall b t, Forall line_ok a -> Forall line_ok b -> dump_text a = Ok t -> dump_text b = Ok t -> a = b.
Proof.
  induction a as [|l a IH]; intros [|m b] t HA HB EA EB; [reflexivity|..]; cbn [dump_text] in EA, EB.
  - injection EA as <-. apply obind_ok in EB. destruct EB as (t1 & _ & EB). apply obind_ok in EB. destruct EB as (t2 & _ & EB). destruct t1; discriminate.
  - injection EB as <-. apply obind_ok in EA. destruct EA as (t1 & _ & EA). apply obind_ok in EA. destruct EA as (t2 & _ & EA). destruct t1; discriminate.
  - inversion HA; inversion HB; subst. apply obind_ok in EA. destruct EA as (t1 & E1 & EA). apply obind_ok in EA. destruct EA as (t2 & E2 & EA). apply Ok_inj in EA.
    apply obind_ok in EB. destruct EB as (t3 & E3 & EB). apply obind_ok in EB. destruct EB as (t4 & E4 & EB). apply Ok_inj in EB. subst t.
    destruct (line_text_inj l m t1 t3 t2 t4 H1 H5 E1 E3 (eq_sym EB)) as [-> ->]. f_equal. eapply IH; eassumption.
Qed.

Lemma listing_ok blocks : forall id, (forall b, In b blocks -> (exists off w, block_bits off b w) /\ block_wf b) -> Forall line_ok (listing id blocks).
Proof.
  induction blocks as [|b blocks IH]; intros id H; cbn [listing]; [constructor|].
  apply Forall_app. split; [repeat constructor|]. apply Forall_app. split; [|apply IH; intros; apply H; now right].
  destruct (H b (or_introl eq_refl)) as [(off & w & HB) HW].
  assert (CL : forall cs, Forall code_ok cs -> Forall line_ok (map code_line cs)).
  { intros cs HC. apply Forall_map. apply Forall_forall. intros c HI. rewrite Forall_forall in HC. specialize (HC c HI). destruct c; cbn in *; auto. }
  inversion HB; subst; cbn [block_wf] in HW.
  - repeat constructor.
  - constructor; [exact I|auto].
  - constructor; [cbn; eauto|auto].
Qed.

Lemma dump_lines_ok file e : bytes_ok file -> Forall line_ok (fst (dump_run (mkSource file e))).
Proof.
  intro HB. destruct (dump_run (mkSource file e)) as [lines o] eqn:ED. cbn [fst].
  assert (KEY : forall body n blocks tail, bytes_ok body ->
     fst (call_next n (parse_deflate (mkSource body e))) = map (fun b => Ok (Some b)) blocks ++ tail -> Forall line_ok (listing 0 blocks)).
  { intros body n blocks tail HBB EC. destruct (call_next_live e n _ _ (live_new body e HBB)) as (_ & _ & _ & H). rewrite EC in H.
    apply listing_ok. intros b HI. destruct (H b) as (off & w & H1 & H2); [|eauto]. apply in_or_app. left. apply in_map_iff. eauto. }
  destruct o as [u|er|m|].
  - destruct u. apply C57_lemma in ED; [|exact HB]. destruct ED as (h & st & tl & blocks & EF & GH & SB & ->).
    assert (HS : bytes_ok (st ++ tl)) by (rewrite EF in HB; apply Forall_app in HB; apply HB).
    destruct (proj2 (parse_all_iff (st ++ tl) e blocks tl HS)) as (it & EP & _); [eauto|]. destruct (parse_all_wf _ _ _ _ HS EP) as (WF & _).
    apply listing_ok. intros b HI. rewrite Forall_forall in WF. split; [|now apply WF]. revert SB b HI. clear. generalize 0%nat. generalize (bits_of_bytes st).
    intros bits off SB. induction SB; intros b' HI; [destruct HI as [<-|[]]; eauto|]. destruct HI as [<-|HI]; eauto.
  - destruct (C57_lemma_failure file e lines (Err er) HB ED ltac:(discriminate)) as (er' & _ & [[_ ->]|(h & body & blocks & EH & EC & ->)]); [constructor|].
    apply (KEY body (S (List.length blocks)) blocks [Err er']); [|exact EC].
    apply C30_lemma in EH. destruct EH as (tl & ES & EF & _). injection ES as ->. rewrite EF in HB. apply Forall_app in HB. apply HB.
  - destruct (C57_lemma_failure file e lines (Panic m) HB ED ltac:(discriminate)) as (er' & X & _). discriminate.
  - destruct (C57_lemma_failure file e lines Diverge HB ED ltac:(discriminate)) as (er' & X & _). discriminate.
Qed.

Lemma C69_lemma_dump : forall file1 e1 file2 e2, bytes_ok file1 -> bytes_ok file2 ->
  exists t1 t2, dump_text (fst (dump_run (mkSource file1 e1))) = Ok t1 /\ dump_text (fst (dump_run (mkSource file2 e2))) = Ok t2
    /\ (t1 = t2 -> fst (dump_run (mkSource file1 e1)) = fst (dump_run (mkSource file2 e2))).
Proof.
  intros f1 e1 f2 e2 H1 H2. assert (L1 := dump_lines_ok f1 e1 H1). assert (L2 := dump_lines_ok f2 e2 H2).
  destruct (dump_text_ok _ L1) as (t1 & T1). destruct (dump_text_ok _ L2) as (t2 & T2). exists t1, t2. split; [exact T1|]. split; [exact T2|].
  intros <-. exact (dump_text_inj _ _ _ L1 L2 T1 T2).
Qed.

(** ** Numbers and plain characters *)
Lemma digits_value_acc u : forall p, numeral 10 (Npos p) (digits u) = Some (Npos (Pos.of_uint_acc u p)).
Proof.
  induction u as [|u IH|u IH|u IH|u IH|u IH|u IH|u IH|u IH|u IH|u IH]; intro p; cbn [digits numeral Pos.of_uint_acc]; [reflexivity|..];
  rewrite <- IH; unfold digit_value; cbn -[numeral digits N.mul N.add Pos.mul Pos.add]; f_equal; lia.
Qed.
Lemma digits_value u : numeral 10 0 (digits u) = Some (N.of_uint u).
Proof.
  induction u as [|u IH|u IH|u IH|u IH|u IH|u IH|u IH|u IH|u IH|u IH]; cbn [digits numeral]; [reflexivity|exact IH|..];
  unfold N.of_uint; cbn [Pos.of_uint]; rewrite <- digits_value_acc; unfold digit_value; cbn -[numeral digits N.mul N.add Pos.mul Pos.add]; f_equal; lia.
Qed.
Lemma digits_no_zero u : match digits (Decimal.nzhead u) with 48 :: _ => False | _ => True end.
Proof. induction u; cbn [Decimal.nzhead digits]; auto. Qed.
Lemma C69_lemma_numbers : forall n,
  numeral 10 0 (decimal n) = Some n
  /\ (forall t, decimal n = 48 :: t -> n = 0 /\ t = [])
  /\ decimal n <> []
  /\ (n < 256 -> List.length (hex2 n) = 2%nat /\ numeral 16 0 (hex2 n) = Some n)
  /\ (n < 65536 -> List.length (hex4 n) = 4%nat /\ numeral 16 0 (hex4 n) = Some n).
Proof.
  intro n. assert (U : N.to_uint n = Decimal.unorm (N.to_uint n)).
  { rewrite <- DecimalN.Unsigned.to_of. rewrite DecimalN.Unsigned.of_to. reflexivity. }
  assert (H2 : forall b a v, a < 256 -> numeral 16 v (hex2 a ++ b) = numeral 16 (v * 256 + a) b).
  { intros b a v A. unfold hex2. cbn [app numeral]. unfold digit_value, hex_digit.
    assert (X : a / 16 < 16) by lia. assert (Y : a mod 16 < 16) by lia.
    destruct (N.ltb_spec (a / 16) 10); destruct (N.ltb_spec (a mod 16) 10);
    repeat match goal with |- context [if ?c then _ else _] => first [replace c with true by lia | replace c with false by lia]; cbv iota end; f_equal; lia. }
  split; [unfold decimal; rewrite digits_value, DecimalN.Unsigned.of_to; reflexivity|]. split; [|split; [|split]].
  - intros t E. unfold decimal in E. rewrite U in E. unfold Decimal.unorm in E. destruct (Decimal.nzhead (N.to_uint n)) eqn:Z.
    + cbn in E. injection E as <-. split; [|reflexivity]. rewrite <- (DecimalN.Unsigned.of_to n). rewrite U. unfold Decimal.unorm. rewrite Z. reflexivity.
    + assert (X := digits_no_zero (N.to_uint n)). rewrite Z in X. cbn [digits] in X. destruct X.
    + discriminate. + discriminate. + discriminate. + discriminate. + discriminate. + discriminate. + discriminate. + discriminate. + discriminate.
  - unfold decimal. rewrite U. unfold Decimal.unorm. destruct (Decimal.nzhead (N.to_uint n)); discriminate.
  - intro L. split; [reflexivity|]. rewrite <- (app_nil_r (hex2 n)), H2 by exact L. cbn [numeral]. f_equal; lia.
  - intro L. split; [reflexivity|]. unfold hex4. rewrite H2 by lia. rewrite <- (app_nil_r (hex2 (n mod 256))), H2 by lia. cbn [numeral]. f_equal; lia.
Qed.

Lemma C69_lemma_plain : forall c, 32 <= c < 127 -> c <> 39 -> c <> 92 -> char_debug c = [39; c; 39].
Proof.
  intros c R A B. unfold char_debug, char_display.
  replace (c =? 0) with false by lia. replace (c =? 9) with false by lia. replace (c =? 10) with false by lia. replace (c =? 13) with false by lia.
  replace (c =? 39) with false by lia. replace (c =? 92) with false by lia.
  replace ((c <? 32) || (127 <=? c) && (c <=? 160) || (c =? 173)) with false by lia. replace (c <? 128) with true by lia. reflexivity.
Qed.

(** ** The match finder *)
Lemma ascending_cons {A} (R : A -> A -> Prop) x l : ascending R (x :: l) -> (forall y, In y l -> R x y) /\ ascending R l.
Proof.
  intro H. split.
  - intros y Hy. destruct (in_split _ _ Hy) as (l1 & l2 & ->). exact (H [] x l1 y l2 eq_refl).
  - intros l1 a l2 b l3 E. apply (H (x :: l1) a l2 b l3). rewrite E. reflexivity.
Qed.

Lemma ascending_ext {A} (R : A -> A -> Prop) : (forall x, ~ R x x) -> (forall x y, R x y -> ~ R y x) ->
  forall l1 l2, ascending R l1 -> ascending R l2 -> (forall x, In x l1 <-> In x l2) -> l1 = l2.
Proof.
  intros IR AS. induction l1 as [|x l1 IH]; intros [|y l2] A1 A2 E; [reflexivity|destruct (proj2 (E y)); left; reflexivity|destruct (proj1 (E x)); left; reflexivity|].
  apply ascending_cons in A1. apply ascending_cons in A2. destruct A1 as [H1 A1]. destruct A2 as [H2 A2].
  assert (x = y). { destruct (proj1 (E x) (or_introl eq_refl)) as [X|X]; [now symmetry|]. destruct (proj2 (E y) (or_introl eq_refl)) as [Y|Y]; [assumption|].
    destruct (AS _ _ (H1 _ Y) (H2 _ X)). }
  subst y. f_equal. apply IH; [assumption..|]. intro z. split; intro Z.
  - destruct (proj1 (E z) (or_intror Z)) as [X|X]; [|assumption]. subst z. destruct (IR _ (H1 _ Z)).
  - destruct (proj2 (E z) (or_intror Z)) as [X|X]; [|assumption]. subst z. destruct (IR _ (H2 _ Z)).
Qed.

Lemma C69_lemma_refs : forall preroll1 data1 limit1 preroll2 data2 limit2,
  let w1 := preroll1 ++ data1 in
  let w2 := preroll2 ++ data2 in
  exists r1 r2 t1 t2, with_sixteen preroll1 data1 limit1 = Ok r1 /\ with_sixteen preroll2 data2 limit2 = Ok r2
    /\ refs_text r1 = Ok t1 /\ refs_text r2 = Ok t2
    /\ (t1 = t2 <-> forall hash, filter (fun q => hash3 w1 q =? hash) (seq 1 (List.length w1 - 3)) = filter (fun q => hash3 w2 q =? hash) (seq 1 (List.length w2 - 3))).
Proof.
  intros p1 d1 c1 p2 d2 c2 w1 w2. destruct (C67_lemma_table p1 d1) as (m1 & l1 & F1 & E1 & A1 & H1). destruct (C67_lemma_table p2 d2) as (m2 & l2 & F2 & E2 & A2 & H2).
  fold w1 in H1. fold w2 in H2.
  assert (T1 := table_text_ok m1 l1 E1). assert (T2 := table_text_ok m2 l2 E2). set (t1 := List.concat _) in T1. set (t2 := List.concat _) in T2.
  exists (mkAllRefs p1 d1 m1 c1), (mkAllRefs p2 d2 m2 c2), (t1 ++ [10]), (t2 ++ [10]).
  split; [unfold with_sixteen; rewrite F1; reflexivity|]. split; [unfold with_sixteen; rewrite F2; reflexivity|].
  split; [unfold refs_text; cbn [ar_map]; rewrite T1; reflexivity|]. split; [unfold refs_text; cbn [ar_map]; rewrite T2; reflexivity|]. split.
  - intros E hash. apply app_inv_tail in E. assert (L : l1 = l2). { eapply table_text_det; [exact E1|exact E2|exact T1|]. rewrite E. exact T2. }
    subst l2. set (f1 := filter _ (seq 1 (List.length w1 - 3))) in *. set (f2 := filter _ (seq 1 (List.length w2 - 3))) in *.
    destruct (list_eq_dec Nat.eq_dec f1 []) as [N1|N1].
    + destruct (list_eq_dec Nat.eq_dec f2 []) as [N2|N2]; [congruence|]. exfalso. assert (X := proj2 (H2 hash f2) (conj eq_refl N2)). apply H1 in X. destruct X as [X _]. fold f1 in X. congruence.
    + assert (X := proj2 (H1 hash f1) (conj eq_refl N1)). apply H2 in X. destruct X as [X _]. exact X.
  - intro E. assert (L : l1 = l2). { eapply ascending_ext; [| |exact A1|exact A2|].
      - intros x X. cbv beta in X. lia.
      - intros x y X Y. cbv beta in X, Y. lia.
      - intros [h ps]. rewrite H1, H2, E. reflexivity. }
    subst t1 t2. rewrite L. reflexivity.
Qed.
