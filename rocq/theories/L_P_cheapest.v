(** Proofs of C98: the hints found are the cheapest ones. *)
From Verif Require Import Base M_bit M_lib M_all_refs M_technique M_trace Spec Clients L_bits L_trace L_strace L_P_trace L_P_shortest L_P_local L_P_e2e L_P_hints L_P_encoder.
From Coq Require Import ZArith ZifyBool ZifyNat ZifyN.
Ltac Zify.zify_post_hook ::= Z.div_mod_to_equations.
Local Open Scope N_scope.
Local Open Scope model_scope.

(** ** The size of hints *)
Definition run_bytes (k : nat) : nat := N.to_nat (2 * ((N.of_nat k + 32766) / 32767)).

Fixpoint size (k : nat) (hints : list Trace) : nat :=
  match hints with
  | [] => run_bytes k
  | Correct :: hints => size (S k) hints
  | ActuallyLiteral :: hints => (run_bytes k + 2 + size 0 hints)%nat
  | Actually _ :: hints => (run_bytes k + 3 + size 0 hints)%nat
  end.

Lemma size_run k l a b : starts_correct l = false -> st_write l = Ok b -> st_write (repeat Correct k ++ l) = Ok a -> List.length a = (run_bytes k + List.length b)%nat.
Proof.
  intros HS EB EA. destruct k as [|k].
  - cbn [repeat app] in EA. rewrite EB in EA. injection EA as <-. reflexivity.
  - destruct (write_corrects_spec (N.of_nat (S k)) ltac:(lia)) as (x & EX & _ & _ & LX).
    rewrite (write_run_ok (S k) l x b ltac:(lia) HS EX EB) in EA. injection EA as <-. rewrite app_length. unfold run_bytes. lia.
Qed.

Lemma size_write hints : forall k bytes, st_write (repeat Correct k ++ hints) = Ok bytes -> List.length bytes = size k hints.
Proof.
  induction hints as [|h hints IH]; intros k bytes E; cbn [size].
  - rewrite (size_run k [] bytes [] eq_refl eq_refl E). cbn [List.length]. lia.
  - destruct (writes hints) as (w & EW). specialize (IH 0%nat w EW) as IH0. destruct h as [| |r].
    + apply (IH (S k)). rewrite <- E. f_equal. cbn [repeat]. now rewrite (repeat_cons k Correct), <- app_assoc.
    + destruct (writes (ActuallyLiteral :: hints)) as (z & EZ). rewrite (size_run k (ActuallyLiteral :: hints) bytes z eq_refl EZ E).
      rewrite write_lit, EW in EZ. injection EZ as <-. cbn [List.length]. lia.
    + destruct (writes (Actually r :: hints)) as (z & EZ). rewrite (size_run k (Actually r :: hints) bytes z eq_refl EZ E).
      rewrite write_ref, EW in EZ. injection EZ as <-. cbn [List.length]. lia.
Qed.

(** The same hints, with some of them turned into [Correct] and some left out at the end. *)
Inductive fewer : list Trace -> list Trace -> Prop :=
| fewer_nil other : fewer [] other
| fewer_same h hints other : fewer hints other -> fewer (h :: hints) (h :: other)
| fewer_correct h hints other : fewer hints other -> fewer (Correct :: hints) (h :: other).

Lemma size_grows other : forall a k, (run_bytes (a + k) <= run_bytes a + size k other)%nat.
Proof.
  induction other as [|h other IH]; intros a k; cbn [size]; [unfold run_bytes; lia|]. destruct h.
  - specialize (IH a (S k)). assert (run_bytes (a + k) <= run_bytes (a + S k))%nat by (unfold run_bytes; lia). lia.
  - unfold run_bytes; lia.
  - unfold run_bytes; lia.
Qed.

Lemma fewer_size hints other : fewer hints other -> forall a k, (size (a + k) hints <= run_bytes a + size k other)%nat.
Proof.
  induction 1 as [other|h hints other HF IH|h hints other HF IH]; intros a k.
  - apply size_grows.
  - destruct h; cbn [size].
    + specialize (IH a (S k)). now rewrite Nat.add_succ_r in IH.
    + specialize (IH 0%nat 0%nat). change (run_bytes 0) with 0%nat in IH. cbn [Nat.add] in IH. assert (run_bytes (a + k) <= run_bytes a + run_bytes k)%nat by (unfold run_bytes; lia). lia.
    + specialize (IH 0%nat 0%nat). change (run_bytes 0) with 0%nat in IH. cbn [Nat.add] in IH. assert (run_bytes (a + k) <= run_bytes a + run_bytes k)%nat by (unfold run_bytes; lia). lia.
  - cbn [size]. assert (X := IH (S (a + k)) 0%nat). rewrite Nat.add_0_r in X.
    assert (run_bytes (S (a + k)) <= run_bytes a + run_bytes k + 2)%nat by (unfold run_bytes; lia).
    destruct h; cbn [size]; [|lia|lia]. specialize (IH a (S k)). now rewrite Nat.add_succ_r in IH.
Qed.

Lemma fewer_bytes hints other bytes obytes : fewer hints other -> st_write hints = Ok bytes -> st_write other = Ok obytes -> (List.length bytes <= List.length obytes)%nat.
Proof.
  intros HF E EO. rewrite (size_write hints 0 bytes E), (size_write other 0 obytes EO). exact (fewer_size hints other HF 0 0).
Qed.

Lemma fewer_nth hints other : fewer hints other -> forall i h, nth_error hints i = Some h -> h = Correct \/ nth_error other i = Some h.
Proof.
  induction 1 as [other|x hints other HF IH|x hints other HF IH]; intros i h E; destruct i as [|i]; cbn [nth_error] in *; try discriminate E; auto.
  injection E as <-. auto.
Qed.

Lemma fewer_length hints other : fewer hints other -> (List.length hints <= List.length other)%nat.
Proof. induction 1; cbn [List.length]; lia. Qed.

(** ** Tracing what was restored *)
Definition follow (t : Technique) (s : Scanner) (codes : list Code) : Scanner := fold_left (feedback t) codes s.

Lemma again t : cfg_lookahead (t_config t) = LGreedy -> forall fuel s other codes, restore_loop fuel t s other = Ok codes ->
  exists hints, trace_loop fuel t s codes = Ok hints /\ restore_loop fuel t s hints = Ok codes /\ fewer hints other /\ List.length hints = List.length codes
  /\ forall i c, nth_error codes i = Some c -> nth_error hints i = Some Correct \/ (sc_codes t (follow t s (firstn i codes)) <> Ok [c] /\ nth_error hints i = Some (hint_of c)).
Proof.
  intros G fuel. induction fuel as [|fuel IH]; intros s other codes E; [discriminate|]. cbn [restore_loop] in E. cbn [trace_loop].
  destruct (more_data t s) eqn:EM; [|injection E as <-; exists []; cbn [restore_loop]; rewrite EM; split; [reflexivity|]; split; [reflexivity|]; split; [constructor|]; split; [reflexivity|]; intros [|i] c X; discriminate X].
  apply obind_ok in E. destruct E as (gs & EG & E). destruct (greedy_one t s G gs EG) as (g & ->). rewrite EG. cbn [obind].
  apply obind_ok in E. destruct E as ([[l s'] tr'] & E1 & E). apply obind_ok in E. destruct E as (codes' & E2 & E). injection E as <-.
  cbn [restore_guesses] in E1. destruct other as [|h other]; [discriminate|]. apply obind_ok in E1. destruct E1 as (orig & EO & E1).
  assert (S1 : l = [orig] /\ s' = feedback t s orig /\ tr' = other).
  { destruct h; cbn [obind] in E1; injection E1 as <- <- <-; auto. }
  destruct S1 as (-> & -> & ->). destruct (IH _ _ _ E2) as (hints & T & R & F & L & P). cbn [app shared_prefix].
  assert (TL : forall h', (h' = Correct \/ (sc_codes t (follow t s []) <> Ok [orig] /\ h' = hint_of orig)) ->
    forall i c, nth_error (orig :: codes') i = Some c -> nth_error (h' :: hints) i = Some Correct \/ (sc_codes t (follow t s (firstn i (orig :: codes'))) <> Ok [c] /\ nth_error (h' :: hints) i = Some (hint_of c))).
  { intros h' HH [|i] c X; cbn [nth_error firstn] in *; [injection X as <-; destruct HH as [->|[H ->]]; auto|]. exact (P i c X). }
  destruct (Code_eqb orig g) eqn:EC.
  - apply Code_eqb_spec in EC. subst g. cbn [List.length Nat.eqb fold_left map]. rewrite T. cbn [obind app]. exists (Correct :: hints). split; [reflexivity|]. split.
    { cbn [restore_loop]. rewrite EM, EG. cbn [obind restore_guesses]. rewrite R. reflexivity. }
    split; [now constructor|]. split; [cbn [List.length]; lia|]. apply TL. auto.
  - assert (NE : g <> orig) by (intros ->; rewrite (proj2 (Code_eqb_spec orig orig) eq_refl) in EC; discriminate EC).
    cbn [List.length Nat.eqb fold_left map app]. rewrite T. cbn [obind app]. exists (hint_of orig :: hints). split; [reflexivity|].
    assert (HH : hint_of orig = h).
    { destruct h; [injection EO as <-; now elim NE| |injection EO as <-; reflexivity]. apply obind_ok in EO. destruct EO as (b & _ & EO). injection EO as <-. reflexivity. }
    split.
    { rewrite HH. cbn [restore_loop]. rewrite EM, EG. cbn [obind restore_guesses]. rewrite EO. cbn [obind].
      destruct h; [injection EO as <-; now elim NE| |]; cbn [obind]; rewrite R; reflexivity. }
    rewrite HH. split; [now constructor|]. split; [cbn [List.length]; lia|]. rewrite <- HH. apply TL. right. split; [|reflexivity].
    unfold follow. cbn [fold_left]. rewrite EG. intro X. injection X. exact NE.
Qed.

Lemma C98_lemma : forall config preroll data limit refs other codes,
  with_sixteen preroll data limit = Ok refs -> cfg_lookahead config = LGreedy ->
  restore other (mkTechnique config refs) = Ok codes ->
  exists hints, trace codes (mkTechnique config refs) = Ok hints /\ restore hints (mkTechnique config refs) = Ok codes
    /\ (List.length hints <= List.length other)%nat
    /\ (forall i h, nth_error hints i = Some h -> h = Correct \/ nth_error other i = Some h)
    /\ forall bytes obytes, st_write hints = Ok bytes -> st_write other = Ok obytes -> (List.length bytes <= List.length obytes)%nat.
Proof.
  intros config p d limit refs other codes _ G E. destruct (again (mkTechnique config refs) G _ _ _ _ E) as (hints & T & R & F & L & _).
  exists hints. split; [exact T|]. split; [exact R|]. split; [now apply fewer_length|]. split; [now apply fewer_nth|].
  intros bytes obytes. now apply fewer_bytes.
Qed.

Definition spicy_text : list N := [50; 1; 2; 3; 99; 2; 3; 4; 5; 98; 3; 4; 5; 6; 7; 8; 97; 1; 2; 3; 4; 5; 6; 7; 8].

Lemma gzip_lookahead level config : Config_gzip level = Ok config -> cfg_lookahead config = LGreedy.
Proof.
  unfold Config_gzip. destruct ((1 <=? level) && (level <=? 9)); [|discriminate]. intro E. apply obind_ok in E. destruct E as (w & _ & E). injection E as <-. reflexivity.
Qed.

Lemma C98_lemma_levels : forall level config preroll data refs codes hints other bytes obytes,
  try_gzip level preroll data codes = Ok hints -> Config_gzip level = Ok config ->
  with_sixteen preroll data (match insert_only_below_length (cfg_wams config) with Some l => l | None => 65535 end) = Ok refs ->
  restore other (mkTechnique config refs) = Ok codes ->
  st_write hints = Ok bytes -> st_write other = Ok obytes -> (List.length bytes <= List.length obytes)%nat.
Proof.
  intros level config p d refs codes hints other bytes obytes E EC EW ER EB EO.
  destruct (C98_lemma config p d _ refs other codes EW (gzip_lookahead level config EC) ER) as (h & T & _ & _ & _ & S).
  unfold try_gzip in E. rewrite EC in E. cbn [obind] in E. unfold tracer_try in E. rewrite EW in E. cbn [obind] in E. unfold validate in E. rewrite T in E. cbn [obind] in E.
  apply obind_ok in E. destruct E as (x & E1 & E). apply obind_ok in E. destruct E as (y & _ & E). injection E as ->.
  apply obind_ok in E1. destruct E1 as (z & _ & E1). destruct (slice_eqb Code_eqb codes z); [|discriminate E1]. injection E1 as ->. exact (S bytes obytes EB EO).
Qed.

Lemma nth_ext_error {A} (a : list A) : forall b, (forall i, nth_error a i = nth_error b i) -> a = b.
Proof.
  induction a as [|x a IH]; intros [|y b] H; [reflexivity|discriminate (H 0%nat)|discriminate (H 0%nat)|].
  f_equal; [specialize (H 0%nat); cbn in H; congruence|]. apply IH. intro i. exact (H (S i)).
Qed.

Lemma C98_lemma_same : forall config preroll data limit refs other codes,
  with_sixteen preroll data limit = Ok refs -> cfg_lookahead config = LGreedy ->
  restore other (mkTechnique config refs) = Ok codes ->
  (trace codes (mkTechnique config refs) = Ok other <->
   List.length other = List.length codes
   /\ forall i c, nth_error codes i = Some c -> nth_error other i <> Some Correct ->
        sc_codes (mkTechnique config refs) (fold_left (feedback (mkTechnique config refs)) (firstn i codes) (scanner (mkTechnique config refs))) <> Ok [c]).
Proof.
  intros config p d limit refs other codes EW G E. destruct (again (mkTechnique config refs) G _ _ _ _ E) as (hints & T & R & F & L & P). fold (trace codes (mkTechnique config refs)) in T. fold (restore hints (mkTechnique config refs)) in R.
  split.
  - intro T'. rewrite T in T'. injection T' as ->. split; [exact L|]. intros i c EC NC. destruct (P i c EC) as [X|[X _]]; [now elim NC|exact X].
  - intros [LO H]. rewrite T. f_equal. apply nth_ext_error. intro i. destruct (nth_error codes i) as [c|] eqn:EC.
    + destruct (nth_error hints i) as [h|] eqn:EH.
      * destruct (fewer_nth _ _ F i h EH) as [->|X]; [|now rewrite X].
        assert (K := C81_lemma_guess config p d limit refs hints codes i c EW G R EH EC).
        destruct (nth_error other i) as [o|] eqn:EO.
        -- destruct o; [reflexivity| |]; exfalso; apply (H i c EC); rewrite ?EO; try discriminate; exact K.
        -- exfalso. apply nth_error_None in EO. assert (i < List.length codes)%nat by (apply nth_error_Some; now rewrite EC). lia.
      * exfalso. apply nth_error_None in EH. assert (i < List.length codes)%nat by (apply nth_error_Some; now rewrite EC). lia.
    + apply nth_error_None in EC. rewrite (proj2 (nth_error_None hints i)), (proj2 (nth_error_None other i)) by lia. reflexivity.
Qed.

Definition spicy_codes : list Code :=
  [Literal 50; Literal 1; Literal 2; Literal 3; Literal 99; Literal 2; Literal 3; Literal 4; Literal 5; Literal 98; Reference (mkRef 4 0);
   Literal 6; Literal 7; Literal 8; Literal 97; Literal 1; Reference (mkRef 13 1); Reference (mkRef 9 0)].

Lemma C98_lemma_refuted : exists config data refs other codes hints bytes obytes,
  Config_spicy = Ok config /\ bytes_ok data /\ with_sixteen [] data 65535 = Ok refs
  /\ encodes [] data codes /\ restore other (mkTechnique config refs) = Ok codes /\ trace codes (mkTechnique config refs) = Ok hints
  /\ st_write hints = Ok bytes /\ st_write other = Ok obytes /\ (List.length obytes < List.length bytes)%nat.
Proof.
  eexists. exists spicy_text. eexists. exists (repeat Correct 15 ++ [ActuallyLiteral; Correct; Correct]). exists spicy_codes. do 3 eexists.
  split; [vm_compute; reflexivity|]. split; [repeat constructor|]. split; [vm_compute; reflexivity|]. split; [vm_compute; reflexivity|].
  split; [vm_compute; reflexivity|]. split; [vm_compute; reflexivity|]. split; [vm_compute; reflexivity|]. split; [vm_compute; reflexivity|]. cbn [List.length]. lia.
Qed.
