(** Lemmas: symbols, extra bits, dynamic headers and block bodies against RFC 1951. *)
From Verif Require Import Base M_bit M_lib M_code_tree M_huffman M_parse Spec L_bits L_reader L_bitprops L_stored L_tree.
From Coq Require Import ZArith ZifyBool ZifyNat ZifyN.
Ltac Zify.zify_post_hook ::= Z.div_mod_to_equations.
Local Open Scope N_scope.
Local Open Scope model_scope.

(** [m] succeeds with [a] exactly on inputs starting with a [w] such that [P a w]. *)
Definition pspec {A} (m : M (list bool) A) (P : A -> list bool -> Prop) : Prop :=
  forall bs a bs', m bs = (Ok a, bs') <-> exists w, bs = w ++ bs' /\ P a w.

Lemma pspec_weaken {A} (m : M _ A) P Q : pspec m P -> (forall a w, P a w <-> Q a w) -> pspec m Q.
Proof.
  intros H E bs a bs'. rewrite (H bs a bs'). split; intros (w & -> & HP); exists w; split; auto; now apply E.
Qed.

Lemma pspec_ret {A} (a : A) : pspec (ret a) (fun a' w => a' = a /\ w = []).
Proof.
  intros bs a' bs'. unfold ret. split.
  - intro H. inversion H; subst. exists []. auto.
  - intros (w & -> & -> & ->). reflexivity.
Qed.

Lemma pspec_none {A} (m : M _ A) : (forall bs a bs', m bs <> (Ok a, bs')) -> pspec m (fun _ _ => False).
Proof.
  intros H bs a bs'. split.
  - intro E. exfalso. exact (H _ _ _ E).
  - intros (w & _ & []).
Qed.

Lemma pspec_fail {A} s : pspec (fail s : M _ A) (fun _ _ => False).
Proof. apply pspec_none. discriminate. Qed.

Lemma pspec_panic {A} s : pspec (panic s : M _ A) (fun _ _ => False).
Proof. apply pspec_none. discriminate. Qed.

Lemma pspec_lift {A} (x : outcome A) : pspec (lift x) (fun a w => x = Ok a /\ w = []).
Proof.
  intros bs a bs'. unfold lift. split.
  - intro H. inversion H; subst. exists []. auto.
  - intros (w & -> & -> & ->). reflexivity.
Qed.

Lemma pspec_ensure b s : pspec (ensure b s) (fun _ w => b = true /\ w = []).
Proof.
  destruct b; cbn [ensure].
  - apply (pspec_weaken _ _ _ (pspec_ret tt)). intros [] w. intuition.
  - apply (pspec_weaken _ _ _ (pspec_fail s)). intros [] w. intuition discriminate.
Qed.

Lemma pspec_assert b s : pspec (assert_ b s) (fun _ w => b = true /\ w = []).
Proof.
  destruct b; cbn [assert_].
  - apply (pspec_weaken _ _ _ (pspec_ret tt)). intros [] w. intuition.
  - apply (pspec_weaken _ _ _ (pspec_panic s)). intros [] w. intuition discriminate.
Qed.

Lemma pspec_bind {A B} (m : M _ A) (g : A -> M _ B) P Q :
  pspec m P -> (forall a w, P a w -> pspec (g a) (Q a)) ->
  pspec (bind m g) (fun b w => exists a w1 w2, w = w1 ++ w2 /\ P a w1 /\ Q a b w2).
Proof.
  intros H1 H2 bs b bs'. unfold bind. split.
  - intro E. destruct (m bs) as [o bs1] eqn:E1. destruct o as [a| | |]; try discriminate.
    apply H1 in E1. destruct E1 as (w1 & -> & HP). apply (H2 _ _ HP) in E.
    destruct E as (w2 & -> & HQ). exists (w1 ++ w2). rewrite app_assoc. split; [reflexivity|]. eauto 6.
  - intros (w & -> & a & w1 & w2 & -> & HP & HQ).
    assert (E1 : m (w1 ++ w2 ++ bs') = (Ok a, w2 ++ bs')) by (apply H1; eauto).
    rewrite <- app_assoc, E1. apply (H2 _ _ HP). eauto.
Qed.

Lemma pspec_ext {A} (m m' : M (list bool) A) P : (forall bs, m bs = m' bs) -> pspec m P -> pspec m' P.
Proof. intros E H bs a bs'. rewrite <- E. apply H. Qed.

Lemma pspec_read_part k n : n <= 16 ->
  pspec (read_part (rbl k) n) (fun v w => v < 2 ^ n /\ w = lsb (N.to_nat n) v).
Proof.
  intros Hn bs a bs'. rewrite read_part_spec by assumption. split.
  - destruct (Nat.leb_spec (N.to_nat n) (List.length bs)) as [L|L].
    + intro E. apply ok_inj in E. destruct E as [<- <-].
      exists (firstn (N.to_nat n) bs). split; [symmetry; apply firstn_skipn|].
      assert (LF : List.length (firstn (N.to_nat n) bs) = N.to_nat n) by (rewrite firstn_length; lia).
      split.
      * assert (B := lsb_value_bound (firstn (N.to_nat n) bs)). rewrite LF, N2Nat.id in B. exact B.
      * rewrite <- LF at 2. symmetry. apply lsb_of_value.
    + destruct k; discriminate.
  - intros (w & -> & Hv & ->). rewrite app_length, lsb_length.
    replace (Nat.leb _ _) with true by (symmetry; apply Nat.leb_le; lia).
    rewrite firstn_app, skipn_app, lsb_length, Nat.sub_diag. cbn [firstn skipn].
    rewrite firstn_all2, skipn_all2 by (rewrite lsb_length; lia). cbn [app]. rewrite app_nil_r.
    rewrite lsb_value_lsb. rewrite N2Nat.id. rewrite N.mod_small by assumption. reflexivity.
Qed.

Lemma pspec_decode k lens t : tree_of lens t ->
  pspec (decode_symbol (rbl k) t) (fun s w => rfc_code lens s = Some w).
Proof. intros H bs s bs'. now apply decode_symbol_spec. Qed.

(** ** Tables *)
Definition frow (table : list (N * N * N)) (sym : N) : option (N * N * N) :=
  find (fun r => fst (fst r) =? sym) table.

Definition keys_unique (table : list (N * N * N)) : bool :=
  forallb (fun r => match frow table (fst (fst r)) with
                    | Some r' => (snd (fst r) =? snd (fst r')) && (snd r =? snd r')
                    | None => false
                    end) table.

Lemma frow_spec table sym extra base : keys_unique table = true ->
  In (sym, extra, base) table <-> frow table sym = Some (sym, extra, base).
Proof.
  intro H. split.
  - intro HI. unfold keys_unique in H. rewrite forallb_forall in H. specialize (H _ HI). cbn [fst snd] in H.
    destruct (frow table sym) as [[[s' e'] b']|] eqn:E; [|discriminate].
    apply find_some in E. destruct E as [_ E]. cbn [fst] in E. apply N.eqb_eq in E.
    cbn [fst snd] in H. apply andb_true_iff in H. destruct H as [H1 H2].
    apply N.eqb_eq in H1, H2. congruence.
  - intro E. apply find_some in E. tauto.
Qed.

Lemma length_keys : keys_unique length_table = true. Proof. reflexivity. Qed.
Lemma distance_keys : keys_unique distance_table = true. Proof. reflexivity. Qed.

Lemma length_row_bounds sym extra base : In (sym, extra, base) length_table ->
  257 <= sym <= 285 /\ extra <= 5 /\ 3 <= base /\ base + 2 ^ extra <= 259.
Proof.
  intro H. assert (F : forallb (fun r => (257 <=? fst (fst r)) && (fst (fst r) <=? 285) && (snd (fst r) <=? 5)
                                  && (3 <=? snd r) && (snd r + 2 ^ (snd (fst r)) <=? 259)) length_table = true)
    by reflexivity.
  rewrite forallb_forall in F. specialize (F _ H). cbn [fst snd] in F.
  rewrite !andb_true_iff, !N.leb_le in F. intuition.
Qed.

Lemma distance_row_bounds sym extra base : In (sym, extra, base) distance_table ->
  sym <= 29 /\ extra <= 13 /\ 1 <= base /\ base + 2 ^ extra <= 32769.
Proof.
  intro H. assert (F : forallb (fun r => (fst (fst r) <=? 29) && (snd (fst r) <=? 13)
                                  && (1 <=? snd r) && (snd r + 2 ^ (snd (fst r)) <=? 32769)) distance_table = true)
    by reflexivity.
  rewrite forallb_forall in F. specialize (F _ H). cbn [fst snd] in F.
  rewrite !andb_true_iff, !N.leb_le in F. intuition.
Qed.

Lemma table_row_length val sym extra e : table_row length_table val sym extra e ->
  257 <= sym <= 285 /\ extra <= 5 /\ 3 <= val <= 258.
Proof.
  intros (b & HI & He & ->). apply length_row_bounds in HI. destruct HI as (H1 & H2 & H3 & H4). repeat split; lia.
Qed.

Lemma table_row_distance val sym extra e : table_row distance_table val sym extra e ->
  sym <= 29 /\ extra <= 13 /\ 1 <= val <= 32768.
Proof.
  intros (b & HI & He & ->). apply distance_row_bounds in HI. destruct HI as (H1 & H2 & H3 & H4). repeat split; lia.
Qed.

Fixpoint range (from : N) (n : nat) : list N :=
  match n with O => [] | S n' => from :: range (from + 1) n' end.

Lemma range_in from n x : In x (range from n) <-> from <= x < from + N.of_nat n.
Proof.
  revert from. induction n; intro from; cbn [range In]; [lia|]. rewrite IHn. lia.
Qed.

(** What the decoder computes for a length symbol: extra bits, base. *)
Definition run_params (sym : N) : N * N :=
  if sym <=? 264 then (0, sym - 254)
  else if sym <=? 284 then (((sym - 261) / 4) mod 256,
                            (N.shiftl ((((sym - 265) mod 256) mod 4) + 4) (((sym - 261) / 4) mod 256)) mod 256 + 3)
  else (0, 258).

Lemma run_params_table sym : 257 <= sym <= 285 ->
  frow length_table sym = Some (sym, fst (run_params sym), snd (run_params sym)).
Proof.
  intro H.
  assert (F : forallb (fun s => match frow length_table s with
                                | Some (s', e, b) => (s' =? s) && (e =? fst (run_params s)) && (b =? snd (run_params s))
                                | None => false end) (range 257 29) = true) by (vm_compute; reflexivity).
  rewrite forallb_forall in F. specialize (F sym). rewrite range_in in F. specialize (F ltac:(lia)).
  destruct (frow length_table sym) as [[[s' e] b]|]; [|discriminate].
  rewrite !andb_true_iff, !N.eqb_eq in F. destruct F as [[-> ->] ->]. reflexivity.
Qed.

Lemma pspec_run_length k sym :
  pspec (decode_run_length (rbl k) sym)
        (fun run w => exists extra e, table_row length_table run sym extra e /\ w = lsb (N.to_nat extra) e).
Proof.
  unfold decode_run_length.
  destruct (N.leb_spec 257 sym) as [L1|L1]; cbn [andb ensure].
  2:{ apply (pspec_weaken _ (fun _ _ => False)); [apply pspec_none; discriminate|].
      intros a w. split; [intros []|]. intros (extra & e & T & _). apply table_row_length in T. lia. }
  destruct (N.leb_spec sym 287) as [L2|L2]; cbn [ensure].
  2:{ apply (pspec_weaken _ (fun _ _ => False)); [apply pspec_none; discriminate|].
      intros a w. split; [intros []|]. intros (extra & e & T & _). apply table_row_length in T. lia. }
  assert (RP : sym <= 285 -> forall run extra e, table_row length_table run sym extra e <->
            (extra = fst (run_params sym) /\ e < 2 ^ fst (run_params sym) /\ run = snd (run_params sym) + e)).
  { intros L3 run extra e. unfold table_row. split.
    - intros (b & HI & He & Hr). apply frow_spec in HI; [|exact length_keys].
      rewrite run_params_table in HI by lia. injection HI as E1 E2. subst extra b. auto.
    - intros (-> & He & ->). exists (snd (run_params sym)). split; [|auto].
      apply frow_spec; [exact length_keys|]. apply run_params_table. lia. }
  change (bind (ret tt)) with (fun (f : unit -> M (list bool) N) => bind (ret tt) f). cbn beta.
  destruct (N.leb_spec sym 264) as [L3|L3].
  - apply (pspec_weaken _ _ _ (pspec_ret (sym - 254))). intros a w.
    assert (RP' := RP ltac:(lia)). clear RP.
    assert (EP : run_params sym = (0, sym - 254)).
    { unfold run_params. destruct (N.leb_spec sym 264); [reflexivity|lia]. }
    rewrite EP in RP'. cbn [fst snd] in RP'. split.
    + intros [-> ->]. exists 0, 0. split; [apply RP'; split; [|split]; [reflexivity|lia|lia]|reflexivity].
    + intros (extra & e & T & ->). apply RP' in T. destruct T as (-> & He & ->). change (2 ^ 0) with 1 in He.
      split; [lia|reflexivity].
  - destruct (N.leb_spec sym 284) as [L4|L4].
    + set (eb := ((sym - 261) / 4) mod 256).
      set (hp := N.shiftl (((sym - 265) mod 256) mod 4 + 4) eb mod 256).
      assert (RP' := RP ltac:(lia)). clear RP.
      assert (EP : run_params sym = (eb, hp + 3)).
      { unfold run_params. destruct (N.leb_spec sym 264); [lia|]. destruct (N.leb_spec sym 284); [reflexivity|lia]. }
      rewrite EP in RP'. cbn [fst snd] in RP'.
      assert (EB : eb <= 5) by (unfold eb; lia).
      replace (eb <? 6) with true by (symmetry; apply N.ltb_lt; lia). cbn [assert_].
      eapply pspec_weaken.
      { apply (pspec_bind (ret tt) _ (fun _ w => w = [])
               (fun _ run w => exists a w1 w2, w = w1 ++ w2 /\ (a < 2 ^ eb /\ w1 = lsb (N.to_nat eb) a) /\ (run = hp + a mod 256 + 3 /\ w2 = []))).
        - apply (pspec_weaken _ _ _ (pspec_ret tt)). intros [] w. intuition.
        - intros _ _ _. 
          apply (pspec_ext (low <- read_part (rbl k) eb ;; ret (hp + low mod 256 + 3))); [reflexivity|].
          apply pspec_bind; [apply pspec_read_part; lia|]. intros a w _. apply pspec_ret. }
      assert (PB : 2 ^ eb <= 2 ^ 5) by (apply N.pow_le_mono_r; lia). change (2 ^ 5) with 32 in PB.
      intros a w. split.
      * intros (_ & w1 & w2 & -> & -> & v & w3 & w4 & -> & (Hv & ->) & -> & ->).
        exists eb, v. split; [apply RP'; repeat split; lia|]. cbn [app]. now rewrite app_nil_r.
      * intros (extra & e & T & ->). apply RP' in T. destruct T as (-> & He & ->).
        exists tt, [], (lsb (N.to_nat eb) e). repeat split. exists e, (lsb (N.to_nat eb) e), [].
        rewrite app_nil_r. repeat split; lia.
    + destruct (N.eqb_spec sym 285) as [E|E].
      * subst sym. apply (pspec_weaken _ _ _ (pspec_ret 258)). intros a w.
        assert (RP' := RP ltac:(lia)). change (run_params 285) with (0, 258) in RP'. cbn [fst snd] in RP'. split.
        -- intros [-> ->]. exists 0, 0. split; [apply RP'; split; [|split]; [reflexivity|reflexivity|reflexivity]|reflexivity].
        -- intros (extra & e & T & ->). apply RP' in T. destruct T as (-> & He & ->). change (2 ^ 0) with 1 in He.
           split; [lia|reflexivity].
      * apply (pspec_weaken _ (fun _ _ => False)); [apply pspec_none; discriminate|].
        intros a w. split; [intros []|]. intros (extra & e & T & _). apply table_row_length in T. lia.
Qed.

Definition dist_params (sym : N) : N * N :=
  if sym <=? 3 then (0, sym + 1)
  else ((sym / 2 - 1) mod 256, N.shiftl (sym mod 2 + 2) ((sym / 2 - 1) mod 256) + 1).

Lemma dist_params_table sym : sym <= 29 ->
  frow distance_table sym = Some (sym, fst (dist_params sym), snd (dist_params sym)).
Proof.
  intro H.
  assert (F : forallb (fun s => match frow distance_table s with
                                | Some (s', e, b) => (s' =? s) && (e =? fst (dist_params s)) && (b =? snd (dist_params s))
                                | None => false end) (range 0 30) = true) by (vm_compute; reflexivity).
  rewrite forallb_forall in F. specialize (F sym). rewrite range_in in F. specialize (F ltac:(lia)).
  destruct (frow distance_table sym) as [[[s' e] b]|]; [|discriminate].
  rewrite !andb_true_iff, !N.eqb_eq in F. destruct F as [[-> ->] ->]. reflexivity.
Qed.

Lemma pspec_distance k sym :
  pspec (decode_distance (rbl k) sym)
        (fun d w => exists extra e, table_row distance_table d sym extra e /\ w = lsb (N.to_nat extra) e).
Proof.
  unfold decode_distance.
  assert (RP : sym <= 29 -> forall d extra e, table_row distance_table d sym extra e <->
            (extra = fst (dist_params sym) /\ e < 2 ^ fst (dist_params sym) /\ d = snd (dist_params sym) + e)).
  { intros L3 d extra e. unfold table_row. split.
    - intros (b & HI & He & Hr). apply frow_spec in HI; [|exact distance_keys].
      rewrite dist_params_table in HI by lia. injection HI as E1 E2. subst extra b. auto.
    - intros (-> & He & ->). exists (snd (dist_params sym)). split; [|auto].
      apply frow_spec; [exact distance_keys|]. apply dist_params_table. lia. }
  destruct (N.leb_spec sym 3) as [L3|L3].
  - apply (pspec_weaken _ _ _ (pspec_ret (sym + 1))). intros a w.
    assert (RP' := RP ltac:(lia)). clear RP.
    assert (EP : dist_params sym = (0, sym + 1)).
    { unfold dist_params. destruct (N.leb_spec sym 3); [reflexivity|lia]. }
    rewrite EP in RP'. cbn [fst snd] in RP'. split.
    + intros [-> ->]. exists 0, 0. split; [apply RP'; split; [|split]; [reflexivity|lia|lia]|reflexivity].
    + intros (extra & e & T & ->). apply RP' in T. destruct T as (-> & He & ->). change (2 ^ 0) with 1 in He.
      split; [lia|reflexivity].
  - destruct (N.leb_spec sym 29) as [L4|L4].
    + set (eb := (sym / 2 - 1) mod 256).
      set (hp := N.shiftl (sym mod 2 + 2) eb + 1).
      assert (RP' := RP ltac:(lia)). clear RP.
      assert (EP : dist_params sym = (eb, hp)).
      { unfold dist_params. destruct (N.leb_spec sym 3); [lia|reflexivity]. }
      rewrite EP in RP'. cbn [fst snd] in RP'.
      assert (EB : eb <= 16) by (unfold eb; lia).
      eapply pspec_weaken.
      { apply (pspec_bind (read_part (rbl k) eb) _ (fun v w => v < 2 ^ eb /\ w = lsb (N.to_nat eb) v) (fun e d w => d = hp + e /\ w = [])); [apply pspec_read_part; lia|].
        intros a w _. apply pspec_ret. }
      intros a w. split.
      * intros (v & w3 & w4 & -> & (Hv & ->) & -> & ->).
        exists eb, v. split; [apply RP'; repeat split; lia|]. now rewrite app_nil_r.
      * intros (extra & e & T & ->). apply RP' in T. destruct T as (-> & He & ->).
        exists e, (lsb (N.to_nat eb) e), []. rewrite app_nil_r. repeat split; lia.
    + apply (pspec_weaken _ (fun _ _ => False)).
      { apply pspec_none. destruct (sym <=? 31); discriminate. }
      intros a w. split; [intros []|]. intros (extra & e & T & _). apply table_row_distance in T. lia.
Qed.

(** ** Encoding sweeps *)
Definition length_sweep (len : N) : bool :=
  match encode_run_length len, extra_run_length len with
  | Ok sym, Ok x =>
      let '(eb, ev) := match x with Some p => p | None => (0, 0) end in
      match frow length_table sym with
      | Some (s', extra, base) => (extra =? eb) && (base + ev =? len) && (ev <? 2 ^ eb)
      | None => false
      end
      && forallb (fun r => let '(s, e, b) := r in
                    (if (b <=? len) && (len <? b + 2 ^ e) then (s =? sym) || ((s =? 284) && (len =? 258)) else true)) length_table
  | _, _ => false
  end.

Lemma length_sweep_all len : 3 <= len <= 258 -> length_sweep len = true.
Proof.
  intro H. assert (F : forallb length_sweep (range 3 256) = true) by (vm_compute; reflexivity).
  rewrite forallb_forall in F. apply F. rewrite range_in. lia.
Qed.

Lemma encode_length_spec len : 3 <= len <= 258 ->
  exists sym x, encode_run_length len = Ok sym /\ extra_run_length len = Ok x
    /\ table_row length_table len sym (match x with Some p => fst p | None => 0 end) (match x with Some p => snd p | None => 0 end)
    /\ (forall s e v, table_row length_table len s e v -> s = sym \/ (s = 284 /\ len = 258)).
Proof.
  intro H. assert (S := length_sweep_all _ H). unfold length_sweep in S.
  destruct (encode_run_length len) as [sym| | |]; try discriminate.
  destruct (extra_run_length len) as [x| | |]; try discriminate.
  exists sym, x. split; [reflexivity|]. split; [reflexivity|].
  destruct (match x with Some p => p | None => (0, 0) end) as [eb ev] eqn:EX.
  assert (EF : match x with Some p => fst p | None => 0 end = eb) by (destruct x; [now rewrite EX|congruence]).
  assert (ES : match x with Some p => snd p | None => 0 end = ev) by (destruct x; [now rewrite EX|congruence]).
  rewrite EF, ES. clear EF ES EX.
  destruct (frow length_table sym) as [[[s' extra] base]|] eqn:EF; [|discriminate].
  apply andb_true_iff in S. destruct S as [S1 S2].
  rewrite !andb_true_iff, !N.eqb_eq, N.ltb_lt in S1. destruct S1 as [[-> <-] S3].
  split.
  - exists base. split; [|auto]. assert (s' = sym) as ->.
    { apply find_some in EF. destruct EF as [_ EF]. now apply N.eqb_eq in EF. }
    apply find_some in EF. tauto.
  - intros s e v (b & HI & Hv & HE). rewrite forallb_forall in S2. specialize (S2 _ HI). cbn beta iota in S2.
    rewrite HE in S2. replace (b <=? b + v) with true in S2 by (symmetry; apply N.leb_le; lia).
    replace (b + v <? b + 2 ^ e) with true in S2 by (symmetry; apply N.ltb_lt; lia). cbn [andb] in S2.
    rewrite orb_true_iff, andb_true_iff, !N.eqb_eq in S2. destruct S2 as [|[]]; [now left|right]. lia.
Qed.

Definition distance_sweep (d : N) : bool :=
  match huff_encode_distance d with
  | Ok (Some (sym, eb, ev)) =>
      match frow distance_table sym with
      | Some (s', extra, base) => (extra =? eb) && (base + ev =? d) && (ev <? 2 ^ eb)
      | None => false
      end
      && forallb (fun r => let '(s, e, b) := r in
                    (if (b <=? d) && (d <? b + 2 ^ e) then s =? sym else true)) distance_table
  | _ => false
  end.

Lemma distance_sweep_all d : 1 <= d <= 32768 -> distance_sweep d = true.
Proof.
  intro H.
  assert (F : forallb (fun hi => forallb (fun lo => distance_sweep (1 + 256 * hi + lo)) (range 0 256)) (range 0 128) = true)
    by (vm_compute; reflexivity).
  rewrite forallb_forall in F. specialize (F ((d - 1) / 256)). rewrite range_in in F. specialize (F ltac:(lia)).
  rewrite forallb_forall in F. specialize (F ((d - 1) mod 256)). rewrite range_in in F. specialize (F ltac:(lia)).
  replace (1 + 256 * ((d - 1) / 256) + (d - 1) mod 256) with d in F by lia. exact F.
Qed.

Lemma encode_distance_spec d : 1 <= d <= 32768 ->
  exists sym eb ev, huff_encode_distance d = Ok (Some (sym, eb, ev))
    /\ table_row distance_table d sym eb ev
    /\ (forall s e v, table_row distance_table d s e v -> s = sym /\ e = eb /\ v = ev).
Proof.
  intro H. assert (S := distance_sweep_all _ H). unfold distance_sweep in S.
  destruct (huff_encode_distance d) as [[[[sym eb] ev]|]| | |]; try discriminate.
  exists sym, eb, ev. split; [reflexivity|].
  destruct (frow distance_table sym) as [[[s' extra] base]|] eqn:EF; [|discriminate].
  apply andb_true_iff in S. destruct S as [S1 S2].
  rewrite !andb_true_iff, !N.eqb_eq, N.ltb_lt in S1. destruct S1 as [[-> <-] S3].
  assert (s' = sym) as ->.
  { apply find_some in EF. destruct EF as [_ EF]. now apply N.eqb_eq in EF. }
  split.
  - exists base. split; [|auto]. apply find_some in EF. tauto.
  - intros s e v (b & HI & Hv & HE). rewrite forallb_forall in S2. specialize (S2 _ HI). cbn beta iota in S2.
    rewrite HE in S2. replace (b <=? b + v) with true in S2 by (symmetry; apply N.leb_le; lia).
    replace (b + v <? b + 2 ^ e) with true in S2 by (symmetry; apply N.ltb_lt; lia). cbn [andb] in S2.
    apply N.eqb_eq in S2. subst s.
    apply frow_spec in HI; [|exact distance_keys]. rewrite EF in HI. injection HI as -> ->. repeat split; lia.
Qed.

(** A row is determined by its symbol. *)
Lemma length_row_det val sym e1 v1 e2 v2 :
  table_row length_table val sym e1 v1 -> table_row length_table val sym e2 v2 -> e1 = e2 /\ v1 = v2.
Proof.
  intros (b1 & H1 & _ & E1) (b2 & H2 & _ & E2).
  apply frow_spec in H1; [|exact length_keys]. apply frow_spec in H2; [|exact length_keys].
  rewrite H1 in H2. injection H2 as <- <-. split; [reflexivity|]. lia.
Qed.
