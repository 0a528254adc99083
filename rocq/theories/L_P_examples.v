(** Proofs of C72 and C73. *)
From Verif Require Import Base M_bit M_lib M_all_refs M_text M_examples Spec Clients_debug Clients_examples L_bits L_search L_P_text.
From Coq Require Import Permutation.
From Coq Require Import ZArith ZifyBool ZifyNat ZifyN.
Ltac Zify.zify_post_hook ::= Z.div_mod_to_equations.
Local Open Scope N_scope.
Local Open Scope model_scope.

(** ** Buckets *)
Lemma triple_eqb_eq s t : triple_eqb s t = true <-> s = t.
Proof. destruct s as [[a b] c], t as [[a' b'] c']. unfold triple_eqb. cbn [fst snd]. rewrite !andb_true_iff, !N.eqb_eq. split; [intros [[-> ->] ->]; reflexivity|intros [= -> -> ->]; auto]. Qed.

Lemma insert_keys h t m : forall h', In h' (map fst (bucket_insert h t m)) <-> h' = h \/ In h' (map fst m).
Proof.
  induction m as [|[k s] m IH]; intros h'; cbn [bucket_insert map fst In]; [intuition|]. destruct (N.eqb_spec k h) as [->|NE]; cbn [map fst In]; [intuition|]. rewrite IH. intuition.
Qed.
Lemma insert_nodup h t m : NoDup (map fst m) -> NoDup (map fst (bucket_insert h t m)).
Proof.
  induction m as [|[k s] m IH]; intro H; cbn [bucket_insert map fst]; [constructor; [intros []|constructor]|]. inversion H; subst. destruct (N.eqb_spec k h) as [->|NE]; cbn [map fst]; [now constructor|].
  constructor; [|now apply IH]. rewrite insert_keys. intros [E|E]; [congruence|contradiction].
Qed.
Lemma insert_in h t m h' s : NoDup (map fst m) -> In (h', s) (bucket_insert h t m) ->
  (h' <> h /\ In (h', s) m) \/ (h' = h /\ ((~ In h (map fst m) /\ s = [t]) \/ exists s0, In (h, s0) m /\ s = if existsb (triple_eqb t) s0 then s0 else t :: s0)).
Proof.
  induction m as [|[k s0] m IH]; intros ND H; cbn [bucket_insert] in H.
  - destruct H as [H|[]]. injection H as <- <-. right. split; [reflexivity|]. left. split; [intros []|reflexivity].
  - cbn [map fst] in ND. inversion ND as [|? ? NI ND']; subst. destruct (N.eqb_spec k h) as [->|NE].
    + destruct H as [H|H].
      * injection H as <- <-. right. split; [reflexivity|]. right. exists s0. split; [now left|reflexivity].
      * left. split; [|now right]. intros ->. apply NI. apply in_map_iff. exists (h, s). auto.
    + destruct H as [H|H].
      * injection H as <- <-. left. split; [congruence|now left].
      * destruct (IH ND' H) as [[A B]|[-> [[A ->]|(s1 & A & ->)]]].
        -- left. split; [exact A|now right].
        -- right. split; [reflexivity|]. left. split; [|reflexivity]. cbn [map fst In]. intros [E|E]; [congruence|contradiction].
        -- right. split; [reflexivity|]. right. exists s1. split; [now right|reflexivity].
Qed.

Definition H (t : triple) : N := sixteen_hash_16 (triple_key t).
Record filled (ts : list triple) (m : buckets) : Prop := {
  fl_nodup : NoDup (map fst m);
  fl_sets : forall h set, In (h, set) m -> set <> [] /\ NoDup set /\ forall t, In t set <-> In t ts /\ H t = h;
  fl_all : forall t, In t ts -> In (H t) (map fst m) }.

Lemma fill_filled ts : filled ts (fill_buckets ts).
Proof.
  induction ts as [|t ts IH] using rev_ind; [constructor; [constructor|intros ? ? []|intros ? []]|].
  unfold fill_buckets. rewrite fold_left_app. cbn [fold_left]. fold (fill_buckets ts). fold (H t). destruct IH as [ND SETS ALL]. constructor.
  - now apply insert_nodup.
  - intros h set HI. apply insert_in in HI; [|exact ND]. destruct HI as [[NE HI]|[-> [[NI ->]|(s0 & HI & ->)]]].
    + destruct (SETS _ _ HI) as (A & B & C). split; [exact A|]. split; [exact B|]. intro u. rewrite C, in_app_iff. cbn [In]. split; [tauto|]. intros [[X|[->|[]]] Y]; [auto|congruence].
    + split; [discriminate|]. split; [constructor; [intros []|constructor]|]. intro u. rewrite in_app_iff. cbn [In]. split; [intros [<-|[]]; auto|]. intros [[X|[->|[]]] Y]; [|auto].
      exfalso. apply NI. rewrite <- Y. now apply ALL.
    + destruct (SETS _ _ HI) as (A & B & C). destruct (existsb (triple_eqb t) s0) eqn:EX.
      * apply existsb_exists in EX. destruct EX as (u & HU & E). apply triple_eqb_eq in E. subst u. split; [exact A|]. split; [exact B|]. intro u. rewrite C, in_app_iff. cbn [In].
        split; [tauto|]. intros [[X|[->|[]]] Y]; [auto|]. apply C in HU. tauto.
      * assert (NI : ~ In t s0). { intro X. assert (existsb (triple_eqb t) s0 = true) by (apply existsb_exists; exists t; split; [exact X|now apply triple_eqb_eq]). congruence. }
        split; [discriminate|]. split; [now constructor|]. intro u. rewrite in_app_iff. cbn [In]. rewrite C. split; [intros [<-|[X Y]]; auto|]. intros [[X|[->|[]]] Y]; auto.
  - intros u HU. rewrite insert_keys. apply in_app_iff in HU. cbn [In] in HU. destruct HU as [HU|[<-|[]]]; [right; now apply ALL|now left].
Qed.

(** ** Sorting *)
Lemma ltb_before a : forall b, List.length a = List.length b -> (str_ltb a b = true <-> sorts_before a b).
Proof.
  induction a as [|x a IH]; intros [|y b] L; try discriminate; cbn [str_ltb].
  - split; [discriminate|]. intros (c & x & a' & y & b' & E & _). destruct c; discriminate.
  - rewrite orb_true_iff, andb_true_iff, N.ltb_lt, N.eqb_eq, IH by (cbn in L; lia). split.
    + intros [LT|[-> (c & x' & a' & y' & b' & -> & -> & LT)]]; [exists [], x, a, y, b; auto|exists (y :: c), x', a', y', b'; auto].
    + intros (c & x' & a' & y' & b' & E1 & E2 & LT). destruct c as [|z c]; cbn [app] in *; injection E1 as -> ->; injection E2 as -> ->; [now left|]. right. split; [reflexivity|]. exists c, x', a', y', b'. auto.
Qed.
Lemma ltb_total a : forall b, List.length a = List.length b -> a <> b -> str_ltb a b = false -> str_ltb b a = true.
Proof.
  induction a as [|x a IH]; intros [|y b] L NE E; try discriminate; [congruence|]. cbn [str_ltb] in *. apply orb_false_iff in E. destruct E as [E1 E2].
  apply orb_true_iff. rewrite andb_true_iff, N.ltb_lt, N.eqb_eq. apply N.ltb_ge in E1. destruct (N.eqb_spec x y) as [->|NX]; [right|left; lia]. split; [reflexivity|]. cbn [andb] in E2.
  apply IH; [cbn in L; lia|congruence|exact E2].
Qed.
Lemma ltb_trans a : forall b c, str_ltb a b = true -> str_ltb b c = true -> str_ltb a c = true.
Proof.
  induction a as [|x a IH]; intros [|y b] [|z c] E1 E2; cbn [str_ltb] in *; try discriminate; auto. rewrite orb_true_iff, andb_true_iff, N.ltb_lt, N.eqb_eq in *.
  destruct E1 as [E1|[-> E1]], E2 as [E2|[-> E2]]; try (left; lia). right. split; [reflexivity|]. eapply IH; eassumption.
Qed.

Lemma insert_perm s l : Permutation (str_insert s l) (s :: l).
Proof. induction l as [|t l IH]; cbn [str_insert]; [auto|]. destruct (str_ltb t s); [|auto]. rewrite IH. apply perm_swap. Qed.
Lemma sort_perm l : Permutation (str_sort l) l.
Proof. induction l as [|s l IH]; cbn [str_sort fold_right]; [auto|]. rewrite insert_perm. now constructor. Qed.

Inductive sorted : list (list N) -> Prop :=
| srt_nil : sorted []
| srt_cons s l : Forall (fun t => str_ltb s t = true) l -> sorted l -> sorted (s :: l).

Lemma insert_sorted s l : sorted l -> Forall (fun t => List.length t = List.length s /\ t <> s) l -> sorted (str_insert s l).
Proof.
  induction 1 as [|t l HT HS IH]; intro HF; cbn [str_insert]; [repeat constructor|]. inversion HF as [|? ? [LT NT] HF']; subst. destruct (str_ltb t s) eqn:E.
  - constructor; [|now apply IH]. rewrite insert_perm. now constructor.
  - apply ltb_total in E; [|auto|auto]. constructor; [|now constructor]. constructor; [exact E|]. eapply Forall_impl; [|exact HT]. cbn. intros u HU. eapply ltb_trans; eassumption.
Qed.
Lemma sort_sorted n l : Forall (fun s => List.length s = n) l -> NoDup l -> sorted (str_sort l).
Proof.
  induction l as [|s l IH]; intros HL ND; cbn [str_sort fold_right]; [constructor|]. inversion HL; inversion ND; subst. apply insert_sorted; [now apply IH|].
  fold (str_sort l). rewrite sort_perm. apply Forall_forall. intros t HT. rewrite Forall_forall in *. split; [auto|]. intros ->. contradiction.
Qed.
Lemma sorted_ascending l n : sorted l -> Forall (fun s => List.length s = n) l -> ascending sorts_before l.
Proof.
  intros HS HL l1 x l2 y l3 ->. revert HS HL. induction l1 as [|z l1 IH]; cbn [app]; intros HS HL; inversion HS as [|? ? FS HS']; inversion HL as [|? ? LX FL]; subst; [|now apply IH].
  rewrite Forall_app in FS, FL. destruct FS as [_ FS], FL as [_ FL]. inversion FS; inversion FL; subst. apply ltb_before; [congruence|assumption].
Qed.

(** ** Triples *)
Lemma typeable_in c : In c typeable <-> 32 <= c <= 126.
Proof. unfold typeable. rewrite in_map_iff. split; [intros (n & <- & HN); apply in_seq in HN; lia|]. intro HC. exists (N.to_nat c). rewrite in_seq. lia. Qed.
Lemma triples_in a b c : In (a, b, c) typeable_triples <-> 32 <= a <= 126 /\ 32 <= b <= 126 /\ 32 <= c <= 126.
Proof.
  unfold typeable_triples. rewrite in_flat_map. split.
  - intros (a' & HA & HI). apply in_flat_map in HI. destruct HI as (b' & HB & HI). apply in_map_iff in HI. destruct HI as (c' & E & HC). injection E as -> -> ->. rewrite !typeable_in in *. auto.
  - intros (HA & HB & HC). exists a. rewrite typeable_in. split; [exact HA|]. apply in_flat_map. exists b. rewrite typeable_in. split; [exact HB|]. apply in_map_iff. exists c. now rewrite typeable_in.
Qed.
Lemma H_hash t : H t = hash3 (triple_text t) 0.
Proof. destruct t as [[a b] c]. unfold H, triple_key, triple_text. cbn [fst snd]. rewrite <- hash_at. reflexivity. Qed.
Lemma text_inj s t : triple_text s = triple_text t -> s = t.
Proof. destruct s as [[a b] c], t as [[a' b'] c']. unfold triple_text. cbn. now intros [= -> -> ->]. Qed.
Lemma with_hash_triple h s : with_hash h s <-> exists t, In t typeable_triples /\ H t = h /\ s = triple_text t.
Proof.
  split.
  - intros (L & F & E). destruct s as [|a [|b [|c [|]]]]; try discriminate. exists (a, b, c). rewrite triples_in, H_hash. inversion F as [|? ? FA F1]; subst. inversion F1 as [|? ? FB F2]; subst. inversion F2; subst. auto.
  - intros ([[a b] c] & HI & E & ->). rewrite triples_in in HI. rewrite H_hash in E. split; [reflexivity|]. split; [|exact E]. unfold triple_text. cbn [fst snd]. repeat constructor; lia.
Qed.

(** ** The listing *)
Lemma order_entry m order : iterates m order -> (forall h o, In (h, o) order -> exists set, In (h, set) m /\ Permutation set o)
  /\ (forall h set, In (h, set) m -> exists o, In (h, o) order /\ Permutation set o) /\ (NoDup (map fst m) -> NoDup (map fst order)).
Proof.
  intros (entries & HP & HF). assert (X : (forall h o, In (h, o) order -> exists set, In (h, set) entries /\ Permutation set o)
    /\ (forall h set, In (h, set) entries -> exists o, In (h, o) order /\ Permutation set o) /\ map fst entries = map fst order).
  { clear HP. induction HF as [|[h s] [h' o] es os [E1 E2] HF (I1 & I2 & I3)]; [repeat split; intros ? ? []|]. cbn [fst snd] in *. subst h'. split; [|split].
    - intros k p [X|X]; [injection X as <- <-; exists s; split; [now left|exact E2]|]. destruct (I1 _ _ X) as (set & A & B). exists set. split; [now right|exact B].
    - intros k p [X|X]; [injection X as <- <-; exists o; split; [now left|exact E2]|]. destruct (I2 _ _ X) as (o' & A & B). exists o'. split; [now right|exact B].
    - cbn [map fst]. now f_equal. }
  destruct X as (I1 & I2 & I3). split; [|split].
  - intros h o HI. destruct (I1 _ _ HI) as (set & A & B). exists set. split; [|exact B]. eapply Permutation_in; [symmetry; exact HP|exact A].
  - intros h set HI. apply I2. eapply Permutation_in; [exact HP|exact HI].
  - intro ND. rewrite <- I3. eapply Permutation_NoDup; [|exact ND]. now apply Permutation_map.
Qed.

(** An entry of the order: all the triples with its hash, each once. *)
Lemma order_good_any ts m order : filled ts m -> (forall h s, with_hash h s <-> exists t, In t ts /\ H t = h /\ s = triple_text t) -> iterates m order -> forall h o, In (h, o) order ->
  o <> [] /\ NoDup o /\ forall s, In s (map triple_text o) <-> with_hash h s.
Proof.
  intros FL WH HI h o HO. destruct (order_entry _ _ HI) as (I1 & _ & _). destruct (I1 _ _ HO) as (set & HS & HP). destruct (fl_sets _ _ FL _ _ HS) as (A & B & C).
  split; [intros ->; apply A; apply Permutation_nil; apply Permutation_sym; exact HP|]. split; [exact (Permutation_NoDup HP B)|]. intro s. rewrite WH, in_map_iff. split.
  - intros (t & <- & HT). exists t. assert (X : In t set) by (eapply Permutation_in; [symmetry; exact HP|exact HT]). apply C in X. tauto.
  - intros (t & HT & E & ->). exists t. split; [reflexivity|]. eapply Permutation_in; [exact HP|]. apply C. auto.
Qed.

Lemma texts_nodup o : NoDup o -> NoDup (map triple_text o).
Proof.
  induction 1 as [|t o NI ND IH]; cbn [map]; [constructor|]. constructor; [|exact IH]. rewrite in_map_iff. intros (u & E & HU). apply text_inj in E. now subst u.
Qed.
Lemma texts_length o : Forall (fun s => List.length s = 3%nat) (map triple_text o).
Proof. apply Forall_forall. intros s HS. apply in_map_iff in HS. destruct HS as (t & <- & _). reflexivity. Qed.

Lemma text_eqb_eq a b : text_eqb a b = true <-> a = b.
Proof. unfold text_eqb. destruct (list_eq_dec N.eq_dec a b); split; congruence. Qed.

Lemma bucket_line_cases o : o <> [] -> NoDup o ->
  match bucket_line o with
  | Some (n, parts) => n = List.length parts /\ Permutation parts (map triple_text o) /\ (2 <= n)%nat /\ ~ (n = 2%nat /\ exists s t, parts = [s; t] /\ same_tail s t)
  | None => (exists t, o = [t]) \/ exists s t, o = [s; t] /\ same_tail (triple_text s) (triple_text t)
  end.
Proof.
  intros NE ND. unfold bucket_line. destruct (Nat.eqb_spec 1 (List.length o)) as [L1|L1].
  { destruct o as [|t [|]]; try discriminate. left. now exists t. }
  cbn zeta. assert (L2 : (2 <= List.length o)%nat) by (destruct o as [|? [|]]; cbn in *; try congruence; lia). rewrite map_length. assert (PS := sort_perm (map triple_text o)).
  destruct (Nat.eqb_spec 2 (List.length o)) as [E2|E2]; cbn [andb].
  - destruct o as [|s [|t [|]]]; try discriminate. cbn [map nth]. destruct (text_eqb _ _) eqn:ET.
    + apply text_eqb_eq in ET. right. exists s, t. split; [reflexivity|]. destruct s as [[a b] c], t as [[a' b'] c']. cbn in ET. injection ET as -> ->. exists a, a', [b'; c']. auto.
    + split; [symmetry; exact (Permutation_length PS)|]. split; [exact PS|]. split; [cbn; lia|]. intros [_ (u & v & EU & (x & y & tl & -> & ->))].
      assert (NT : skipn 1 (triple_text s) <> skipn 1 (triple_text t)) by (intro X; apply text_eqb_eq in X; congruence). apply NT.
      cbn [map] in PS. rewrite EU in PS. assert (A : forall z, In z [triple_text s; triple_text t] -> skipn 1 z = tl).
      { intros z HZ. assert (X : In z [x :: tl; y :: tl]) by (eapply Permutation_in; [symmetry; exact PS|exact HZ]). destruct X as [<-|[<-|[]]]; reflexivity. }
      rewrite !A by (cbn; auto). reflexivity.
  - split; [symmetry; exact (eq_trans (Permutation_length PS) (map_length _ _))|]. split; [exact PS|]. split; [exact L2|]. intros [X _]. congruence.
Qed.

Lemma lines_in order n parts : In (n, parts) (collisions_lines order) <-> exists h o, In (h, o) order /\ bucket_line o = Some (n, parts).
Proof.
  unfold collisions_lines. rewrite in_flat_map. split.
  - intros ([h o] & HI & HL). cbn [snd] in HL. exists h, o. split; [exact HI|]. destruct (bucket_line o) as [l|]; [|destruct HL]. destruct HL as [->|[]]. reflexivity.
  - intros (h & o & HI & E). exists (h, o). split; [exact HI|]. cbn [snd]. rewrite E. now left.
Qed.

Lemma lines_nodup order : NoDup (map fst order) -> (forall h o, In (h, o) order -> o <> [] /\ NoDup o /\ forall s, In s (map triple_text o) <-> with_hash h s) ->
  NoDup (map snd (collisions_lines order)).
Proof.
  induction order as [|[h o] order IH]; intros ND G; cbn [collisions_lines flat_map]; [constructor|]. fold (collisions_lines order). cbn [map fst snd] in *. inversion ND as [|? ? NI ND']; subst.
  assert (IH' := IH ND' (fun h' o' X => G h' o' (or_intror X))). destruct (G h o (or_introl eq_refl)) as (NE & NDo & GO). assert (B := bucket_line_cases o NE NDo).
  destruct (bucket_line o) as [[n parts]|]; cbn [app map snd]; [|exact IH']. constructor; [|exact IH']. intro X. apply in_map_iff in X. destruct X as ([n' parts'] & E & HI). cbn [snd] in E. subst parts'.
  apply lines_in in HI. destruct HI as (h' & o' & HO' & EB). destruct (G h' o' (or_intror HO')) as (NE' & NDo' & GO'). assert (B' := bucket_line_cases o' NE' NDo'). rewrite EB in B'.
  destruct B as (L & P & L2 & _), B' as (_ & P' & _). destruct parts as [|s parts]; [cbn in L; lia|].
  assert (A1 : with_hash h s) by (apply GO; eapply Permutation_in; [exact P|now left]). assert (A2 : with_hash h' s) by (apply GO'; eapply Permutation_in; [exact P'|now left]).
  destruct A1 as (_ & _ & E1), A2 as (_ & _ & E2). apply NI. apply in_map_iff. exists (h', o'). cbn. split; [congruence|exact HO'].
Qed.

Lemma listing_any ts m : filled ts m -> (forall h s, with_hash h s <-> exists t, In t ts /\ H t = h /\ s = triple_text t) -> forall order, iterates m order ->
  (forall n parts, In (n, parts) (collisions_lines order) ->
     n = List.length parts /\ (2 <= n)%nat /\ ascending sorts_before parts
     /\ (exists h, forall s, In s parts <-> with_hash h s)
     /\ forall s t, parts = [s; t] -> ~ same_tail s t)
  /\ (forall h s t, with_hash h s -> with_hash h t -> s <> t ->
        (exists n parts, In (n, parts) (collisions_lines order) /\ In s parts /\ In t parts)
        \/ (same_tail s t /\ forall u, with_hash h u -> u = s \/ u = t))
  /\ NoDup (map snd (collisions_lines order)).
Proof.
  intros FL WH order HI. assert (G := order_good_any ts m order FL WH HI). split; [|split].
  - intros n parts HL. apply lines_in in HL. destruct HL as (h & o & HO & EB). destruct (G h o HO) as (NE & ND & GO). assert (B := bucket_line_cases o NE ND). rewrite EB in B.
    destruct B as (L & P & L2 & NS). split; [exact L|]. split; [exact L2|]. split; [|split].
    + assert (F : Forall (fun s => List.length s = 3%nat) parts) by (rewrite P; apply texts_length). apply (sorted_ascending _ 3); [|exact F].
      assert (EP : parts = str_sort (map triple_text o)). { unfold bucket_line in EB. destruct (Nat.eqb 1 _); [discriminate|]. destruct (_ && _); [discriminate|]. now injection EB as _ <-. }
      rewrite EP. apply (sort_sorted 3); [apply texts_length|now apply texts_nodup].
    + exists h. intro s. rewrite <- GO. split; intro X; [eapply Permutation_in; [exact P|exact X]|eapply Permutation_in; [symmetry; exact P|exact X]].
    + intros s t -> ST. apply NS. split; [exact L|]. exists s, t. auto.
  - intros h s t HS HT NE. assert (HS' := HS). apply WH in HS'. destruct HS' as (t0 & IS & EH & ES). assert (ALL := fl_all _ _ FL t0 IS). rewrite EH in ALL.
    apply in_map_iff in ALL. destruct ALL as ([h' set] & E & HM). cbn [fst] in E. subst h'. destruct (order_entry _ _ HI) as (_ & I2 & _). destruct (I2 _ _ HM) as (o & HO & _).
    destruct (G h o HO) as (NEo & ND & GO). assert (B := bucket_line_cases o NEo ND). apply GO in HS. apply GO in HT. destruct (bucket_line o) as [[n parts]|] eqn:EB.
    + left. exists n, parts. split; [apply lines_in; now exists h, o|]. destruct B as (_ & P & _). split; (eapply Permutation_in; [symmetry; exact P|assumption]).
    + right. destruct B as [(x & ->)|(x & y & -> & ST)]; cbn [map In] in *.
      * destruct HS as [<-|[]], HT as [<-|[]]. congruence.
      * split.
        -- destruct HS as [<-|[<-|[]]], HT as [<-|[<-|[]]]; try congruence. destruct ST as (p & q & tl & E1 & E2). exists q, p, tl. auto.
        -- intros u HU. apply GO in HU. destruct HS as [<-|[<-|[]]], HT as [<-|[<-|[]]], HU as [<-|[<-|[]]]; auto; congruence.
  - apply lines_nodup; [|exact G]. destruct (order_entry _ _ HI) as (_ & _ & I3). apply I3. exact (fl_nodup _ _ FL).
Qed.

Lemma C72_lemma : forall order, iterates (fill_buckets typeable_triples) order ->
  (forall n parts, In (n, parts) (collisions_lines order) ->
     n = List.length parts /\ (2 <= n)%nat /\ ascending sorts_before parts
     /\ (exists h, forall s, In s parts <-> with_hash h s)
     /\ forall s t, parts = [s; t] -> ~ same_tail s t)
  /\ (forall h s t, with_hash h s -> with_hash h t -> s <> t ->
        (exists n parts, In (n, parts) (collisions_lines order) /\ In s parts /\ In t parts)
        \/ (same_tail s t /\ forall u, with_hash h u -> u = s \/ u = t))
  /\ NoDup (map snd (collisions_lines order)).
Proof. exact (listing_any _ _ (fill_filled typeable_triples) with_hash_triple). Qed.

(** No string is alone: 32 more or less in the first character gives the same hash. *)
Lemma C72_lemma_alone : forall h s, with_hash h s -> exists t, with_hash h t /\ t <> s /\ same_tail s t.
Proof.
  intros h s (L & F & E). destruct s as [|a [|b [|c [|]]]]; try discriminate. inversion F as [|? ? FA F1]; subst.
  assert (X : forall x, 32 <= x <= 94 -> hash3 [x + 32; b; c] 0 = hash3 [x; b; c] 0).
  { intros x HX. unfold hash3. cbn [nth plus]. change 32768 with (2 ^ 15). rewrite <- !N.land_ones. apply N.bits_inj. intro i. rewrite !N.land_spec, !N.lxor_spec.
    destruct (N.ltb_spec i 15) as [LT|GE]; [|rewrite !N.ones_spec_high by lia; now rewrite !andb_false_r]. do 2 f_equal. 
    replace (1024 * (x + 32)) with (N.shiftl (x + 32) 10) by (rewrite N.shiftl_mul_pow2; change (2 ^ 10) with 1024; lia). replace (1024 * x) with (N.shiftl x 10) by (rewrite N.shiftl_mul_pow2; change (2 ^ 10) with 1024; lia). f_equal.
    destruct (N.ltb_spec i 10); [now rewrite !N.shiftl_spec_low by lia|]. rewrite !N.shiftl_spec_high' by lia.
    rewrite <- (N.mod_pow2_bits_low (x + 32) 5) by lia. rewrite <- (N.mod_pow2_bits_low x 5) by lia. f_equal. change (2 ^ 5) with 32. lia. }
  destruct (N.ltb_spec a 95).
  - exists [a + 32; b; c]. split; [|split; [intro Y; injection Y; lia|exists a, (a + 32), [b; c]; auto]]. split; [reflexivity|]. split; [constructor; [lia|assumption]|]. apply X. lia.
  - exists [a - 32; b; c]. split; [|split; [intro Y; injection Y; lia|exists a, (a - 32), [b; c]; auto]]. split; [reflexivity|]. split; [constructor; [lia|assumption]|]. rewrite <- (X (a - 32)) by lia. do 2 f_equal. lia.
Qed.

(** The text printed determines the lines. *)
Lemma join_inj a : forall b x y, List.length a = List.length b -> a <> [] -> Forall (fun s => List.length s = 3%nat) a -> Forall (fun s => List.length s = 3%nat) b ->
  join (text ", ") a ++ x = join (text ", ") b ++ y -> a = b /\ x = y.
Proof.
  induction a as [|s a IH]; intros [|t b] x y L NE FA FB E; try discriminate; [congruence|]. inversion FA as [|? ? LS FA']; inversion FB as [|? ? LT FB']; subst.
  destruct s as [|s1 [|s2 [|s3 [|]]]]; try discriminate. destruct t as [|t1 [|t2 [|t3 [|]]]]; try discriminate.
  destruct a as [|s' a], b as [|t' b]; try discriminate.
  - cbn in E. injection E as -> -> -> ->. auto.
  - assert (EE : join (text ", ") (s' :: a) ++ x = join (text ", ") (t' :: b) ++ y /\ [s1; s2; s3] = [t1; t2; t3]).
    { cbn [join] in E |- *. rewrite <- !app_assoc in E. cbn [app text] in E. injection E as -> -> -> E. auto. }
    destruct EE as [EE ->]. destruct (IH (t' :: b) x y) as [-> ->]; auto. discriminate.
Qed.
Lemma line_text_inj l l' x y : listing_line l -> listing_line l' -> collision_text l ++ x = collision_text l' ++ y -> l = l' /\ x = y.
Proof.
  destruct l as [n a], l' as [n' b]. intros (L & G & F) (L' & G' & F') E. unfold collision_text in E. cbn [fst snd] in *. rewrite <- !app_assoc in E.
  apply decimal_inj in E; [|cbn; unfold is_digit; lia..]. destruct E as [EN E]. apply app_inv_head in E. apply Nnat.Nat2N.inj in EN. rewrite <- EN in *.
  apply join_inj in E; [|congruence|intros ->; cbn in L; lia|exact F|exact F']. destruct E as [-> E]. injection E as ->. auto.
Qed.
Lemma C72_lemma_text : forall l1 l2, Forall listing_line l1 -> Forall listing_line l2 ->
  List.concat (map collision_text l1) = List.concat (map collision_text l2) -> l1 = l2.
Proof.
  assert (NE : forall l x, collision_text l ++ x <> []).
  { intros [n a] x E. apply app_eq_nil in E. destruct E as [E _]. unfold collision_text in E. apply app_eq_nil in E. destruct E as [_ E]. discriminate E. }
  induction l1 as [|l l1 IH]; intros [|l' l2] F F' E; cbn [map List.concat] in E; [reflexivity|symmetry in E; now apply NE in E|now apply NE in E|].
  inversion F; inversion F'; subst. apply line_text_inj in E; [|assumption..]. destruct E as [-> E]. f_equal. now apply IH.
Qed.

(** ** hard.rs *)
Lemma graphic_check : forallb (fun c => (33 <=? c) && (c <=? 126)) graphic_chars = true.
Proof. vm_compute. reflexivity. Qed.
Lemma graphic_all c : In c graphic_chars -> 33 <= c <= 126.
Proof. intro E. assert (X := proj1 (forallb_forall _ _) graphic_check c E). cbv beta in X. apply andb_true_iff in X. rewrite !N.leb_le in X. exact X. Qed.
Lemma some_in {A} (l : list A) i : l <> [] -> exists c, nth_error l (i mod List.length l) = Some c /\ In c l.
Proof.
  intro NE. assert (LT : (i mod List.length l < List.length l)%nat) by (apply Nat.mod_upper_bound; destruct l; [congruence|discriminate]).
  destruct (nth_error l (i mod List.length l)) as [c|] eqn:E; [|apply nth_error_None in E; lia]. exists c. split; [reflexivity|]. now apply nth_error_In in E.
Qed.
Lemma graphic_in i : exists c, nth_error graphic_chars (i mod List.length graphic_chars) = Some c /\ 33 <= c <= 126.
Proof.
  destruct (some_in graphic_chars i) as (c & E & HC); [discriminate|]. exists c. split; [exact E|]. now apply graphic_all.
Qed.
Lemma hard_fill_ok {G} (draw : G -> nat * G) : forall n rng, exists l rng', hard_fill draw n rng = (Ok l, rng') /\ List.length l = n /\ Forall (fun c => 33 <= c <= 126) l.
Proof.
  induction n as [|n IH]; intros rng; cbn [hard_fill]; [exists [], rng; auto|]. destruct (draw rng) as [i rng1]. destruct (graphic_in i) as (c & -> & HC). destruct (IH rng1) as (l & rng' & -> & L & F).
  exists (c :: l), rng'. cbn [obind]. split; [reflexivity|]. split; [cbn; lia|now constructor].
Qed.

Lemma C73_lemma : forall G (draw : G -> nat * G) rounds rng limit,
  let '(o, out) := hard_loop draw rounds rng (mkSink [] limit) in
  exists lines, Forall hard_line lines /\
  ((o = Ok tt /\ List.length lines = rounds /\ written out = List.concat lines)
   \/ (exists m room, o = Panic m /\ limit = Some room /\ (List.length lines <= rounds)%nat /\ (room < List.length (List.concat lines))%nat /\ written out = firstn room (List.concat lines))).
Proof.
  intros G draw rounds rng limit.
  assert (X : forall rounds rng before, let '(o, out) := hard_loop draw rounds rng (mkSink before limit) in
    exists lines, Forall hard_line lines /\
    ((o = Ok tt /\ List.length lines = rounds /\ written out = before ++ List.concat lines)
     \/ (exists m room, o = Panic m /\ limit = Some room /\ (List.length lines <= rounds)%nat /\ (room < List.length (List.concat lines))%nat /\ written out = before ++ firstn room (List.concat lines)))).
  { clear rounds rng. revert limit. assert (Y : forall rounds limit rng before, let '(o, out) := hard_loop draw rounds rng (mkSink before limit) in
    exists lines, Forall hard_line lines /\
    ((o = Ok tt /\ List.length lines = rounds /\ written out = before ++ List.concat lines)
     \/ (exists m room, o = Panic m /\ limit = Some room /\ (List.length lines <= rounds)%nat /\ (room < List.length (List.concat lines))%nat /\ written out = before ++ firstn room (List.concat lines)))); [|intros; apply Y].
    induction rounds as [|rounds IH]; intros limit rng before; cbn [hard_loop].
    - cbn. exists []. split; [constructor|]. left. cbn. rewrite app_nil_r. auto.
    - destruct (hard_fill_ok draw 7 rng) as (l & rng' & -> & L & F). assert (HL : hard_line (l ++ [10])) by (exists l; auto). assert (L8 : List.length (l ++ [10]) = 8%nat) by (rewrite app_length; cbn; lia).
      unfold write_all. cbn [room written]. destruct limit as [r|].
      + rewrite L8. destruct (Nat.leb_spec 8 r).
        * specialize (IH (Some (r - 8)%nat) rng' (before ++ (l ++ [10]))). destruct (hard_loop draw rounds rng' _) as [o out]. destruct IH as (lines & FL & [(-> & LL & W)|(m & rm & -> & ER & LL & LT & W)]).
          -- exists ((l ++ [10]) :: lines). split; [now constructor|]. left. split; [reflexivity|]. split; [cbn; lia|]. rewrite W. cbn [List.concat]. now rewrite <- app_assoc.
          -- injection ER as <-. exists ((l ++ [10]) :: lines). split; [now constructor|]. right. exists m, r. split; [reflexivity|]. split; [reflexivity|]. split; [cbn; lia|]. cbn [List.concat]. rewrite app_length.
             split; [lia|]. rewrite W, firstn_app, L8, (firstn_all2 (l ++ [10])) by lia. now rewrite <- !app_assoc.
        * exists [l ++ [10]]. split; [now constructor|]. right. eexists _, r. split; [reflexivity|]. split; [reflexivity|]. split; [cbn; lia|]. cbn [List.concat written]. rewrite app_nil_r. split; [lia|reflexivity].
      + specialize (IH None rng' (before ++ (l ++ [10]))). destruct (hard_loop draw rounds rng' _) as [o out]. destruct IH as (lines & FL & [(-> & LL & W)|(m & rm & _ & ER & _)]); [|discriminate].
        exists ((l ++ [10]) :: lines). split; [now constructor|]. left. split; [reflexivity|]. split; [cbn; lia|]. rewrite W. cbn [List.concat]. now rewrite <- app_assoc. }
  exact (X rounds rng []).
Qed.
