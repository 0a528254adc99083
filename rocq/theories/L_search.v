(** Lemmas: the hash chains and the match finder. *)
From Verif Require Import Base M_bit M_lib M_all_refs Spec Clients L_bits L_ring.
From Coq Require Import ZArith ZifyBool ZifyNat ZifyN Sorted.
Ltac Zify.zify_post_hook ::= Z.div_mod_to_equations.
Local Open Scope N_scope.
Local Open Scope model_scope.

(** ** The hash *)
Lemma hash_bits k : sixteen_hash_16 k = N.lxor (N.lxor (1024 * k0 k) (32 * k1 k)) (k2 k) mod 32768.
Proof.
  unfold sixteen_hash_16. cbn zeta. rewrite N.lxor_0_l. change 32767 with (N.ones 15). rewrite N.land_ones.
  change 65536 with (2 ^ 16). change 32768 with (2 ^ 15). apply N.bits_inj. intro i.
  destruct (N.ltb_spec i 15); [|rewrite !N.mod_pow2_bits_high by lia; reflexivity].
  rewrite !N.mod_pow2_bits_low, !N.lxor_spec by lia. f_equal. rewrite N.mod_pow2_bits_low by lia.
  replace (1024 * k0 k) with (N.shiftl (k0 k) 10) by (rewrite N.shiftl_mul_pow2; change (2 ^ 10) with 1024; lia).
  replace (32 * k1 k) with (N.shiftl (k1 k) 5) by (rewrite N.shiftl_mul_pow2; change (2 ^ 5) with 32; lia).
  destruct (N.ltb_spec i 5).
  - now rewrite !N.shiftl_spec_low by lia.
  - rewrite (N.shiftl_spec_high _ 5 i) by lia. rewrite N.lxor_spec, N.mod_pow2_bits_low by lia. rewrite (N.shiftl_spec_high (k1 k) 5 i) by lia. f_equal.
    destruct (N.ltb_spec i 10).
    + now rewrite !N.shiftl_spec_low by lia.
    + rewrite !N.shiftl_spec_high by lia. f_equal. lia.
Qed.

Lemma hash_small k : sixteen_hash_16 k < HASH_SIZE.
Proof. rewrite hash_bits. unfold HASH_SIZE. change (32 * 1024) with 32768. apply N.mod_lt. lia. Qed.

Definition key_at (w : list N) (p : nat) : Key := mkKey (nth p w 0) (nth (p + 1) w 0) (nth (p + 2) w 0).
Lemma hash_at w p : sixteen_hash_16 (key_at w p) = hash3 w p.
Proof. rewrite hash_bits. reflexivity. Qed.

(** ** Windows *)
Lemma windows3_eq w : windows3 w = map (key_at w) (seq 0 (List.length w - 2)).
Proof.
  induction w as [|a w IH]; [reflexivity|]. destruct w as [|b [|c w]]; [reflexivity|reflexivity|].
  change (windows3 (a :: b :: c :: w)) with (mkKey a b c :: windows3 (b :: c :: w)). rewrite IH.
  replace (List.length (a :: b :: c :: w) - 2)%nat with (S (List.length (b :: c :: w) - 2)) by (cbn [List.length]; lia).
  cbn [seq map]. f_equal. rewrite <- seq_shift, map_map. apply map_ext. intro p. reflexivity.
Qed.

(** ** Candidate positions *)
  Lemma rev_seq_S k : rev (seq 1 (S k - 1)) = match k with O => [] | S _ => k :: rev (seq 1 (k - 1)) end.
  Proof.
    destruct k as [|k]; [reflexivity|]. replace (S (S k) - 1)%nat with (S k) by lia. replace (S k - 1)%nat with k by lia.
    rewrite seq_S, rev_app_distr. reflexivity.
  Qed.

Section Chain.
  Context (H : nat -> N).
  Definition cand (h : N) (k : nat) : list nat := filter (fun q => H q =? h) (rev (seq 1 (k - 1))).

  Lemma cand_S h k : cand h (S k) = match k with O => [] | S _ => if H k =? h then k :: cand h k else cand h k end.
  Proof. unfold cand. rewrite rev_seq_S. destruct k; reflexivity. Qed.

  Lemma cand_in h k q : In q (cand h k) <-> (1 <= q < k)%nat /\ H q = h.
  Proof. unfold cand. rewrite filter_In, <- in_rev, in_seq. lia. Qed.

  Lemma cand_tail h k q l : cand h k = q :: l -> l = cand h q.
  Proof.
    induction k as [|k IH]; intro E; [discriminate|]. rewrite cand_S in E. destruct k as [|k]; [discriminate|].
    destruct (H (S k) =? h) eqn:EH; [|now apply IH]. injection E as <- <-. reflexivity.
  Qed.

  (** The invariant of the table after [k] positions. *)
  Definition tables (k : nat) (m : BackMap) : Prop :=
    (forall h, hash_to_pos m h = hd 0%nat (cand h k))
    /\ forall p, (p < k)%nat -> nth_error (pos_to_pos m) p = Some (hd 0%nat (cand (H p) p)).

  Lemma chain_spec m k : tables k m -> forall p fuel, (p < k)%nat -> (p < fuel)%nat ->
    chain_from fuel (pos_to_pos m) p = Ok (p :: cand (H p) p).
  Proof.
    intros [_ T] p. induction p as [p IH] using lt_wf_ind. intros fuel Hp HF. destruct fuel as [|fuel]; [lia|].
    cbn [chain_from]. unfold get_idx. rewrite (T p Hp). cbn [obind]. destruct (cand (H p) p) as [|q l] eqn:EC; cbn [hd].
    - reflexivity.
    - assert (IQ : In q (cand (H p) p)) by (rewrite EC; now left). apply cand_in in IQ.
      destruct q as [|q]; [lia|]. rewrite IH by lia. cbn [obind]. apply cand_tail in EC. rewrite (proj2 IQ). now rewrite EC.
  Qed.
End Chain.

Lemma from_window_spec H keys : forall pos m, (forall i k, nth_error keys i = Some k -> sixteen_hash_16 k = H (pos + i)%nat) ->
  (pos + List.length keys <= List.length (pos_to_pos m))%nat -> tables H pos m ->
  exists m', from_window_loop pos keys m = Ok m' /\ tables H (pos + List.length keys) m'
    /\ List.length (pos_to_pos m') = List.length (pos_to_pos m).
Proof.
  induction keys as [|key keys IH]; intros pos m HK HL HT; cbn [from_window_loop List.length].
  - exists m. rewrite Nat.add_0_r. auto.
  - assert (EH := HK 0%nat key eq_refl). rewrite Nat.add_0_r in EH. unfold hash_get.
    assert (HS := hash_small key). apply N.ltb_lt in HS. rewrite HS. cbn [obind]. unfold set_idx. cbn [List.length] in HL.
    destruct (Nat.ltb_spec pos (List.length (pos_to_pos m))) as [_|]; [|lia]. cbn [obind].
    destruct (IH (S pos) (mkBackMap (hash_set (hash_to_pos m) (sixteen_hash_16 key) pos) (upd (pos_to_pos m) pos (hash_to_pos m (sixteen_hash_16 key))))) as (m' & E & T & L).
    + intros i k Hi. rewrite (HK (S i) k Hi). f_equal. lia.
    + cbn [pos_to_pos]. rewrite upd_length. lia.
    + destruct HT as [T1 T2]. split; cbn [hash_to_pos pos_to_pos].
      * intro h. unfold hash_set. rewrite cand_S, EH, (N.eqb_sym h). destruct pos as [|pos].
        -- destruct (H 0%nat =? h); [reflexivity|]. rewrite T1. reflexivity.
        -- destruct (H (S pos) =? h); [reflexivity|]. apply T1.
      * intros p Hp. assert (p = pos \/ p < pos)%nat as [->|Hp'] by lia.
        -- rewrite upd_same by lia. now rewrite T1, EH.
        -- rewrite upd_other by lia. now apply T2.
    + exists m'. split; [exact E|]. split; [|cbn [pos_to_pos] in L; rewrite upd_length in L; exact L].
      now replace (pos + S (List.length keys))%nat with (S pos + List.length keys)%nat by lia.
Qed.

(** [a] was made by [with_sixteen] for data [w] in all. *)
Definition refs_of (w : list N) (a : AllRefs) : Prop :=
  ar_preroll a ++ ar_data a = w /\ tables (hash3 w) (List.length w - 2) (ar_map a)
  /\ List.length (pos_to_pos (ar_map a)) = List.length w.

Lemma with_sixteen_ok preroll data limit : exists a, with_sixteen preroll data limit = Ok a
  /\ refs_of (preroll ++ data) a /\ ar_limit a = limit /\ ar_preroll a = preroll /\ ar_data a = data.
Proof.
  unfold with_sixteen, from_window. rewrite windows3_eq. set (w := preroll ++ data).
  destruct (from_window_spec (hash3 w) (map (key_at w) (seq 0 (List.length w - 2))) 0
     (mkBackMap (fun _ => 0%nat) (repeat 0%nat (List.length preroll + List.length data)))) as (m & E & T & L).
  - intros i k Hi. rewrite nth_error_map in Hi. destruct (nth_error (seq 0 (List.length w - 2)) i) as [j|] eqn:EJ; [|discriminate].
    cbn in Hi. injection Hi as <-. rewrite hash_at. f_equal.
    assert (Hi : (i < List.length w - 2)%nat) by (rewrite <- (seq_length (List.length w - 2) 0); apply nth_error_Some; congruence).
    rewrite (nth_error_nth' _ 0%nat) in EJ by now rewrite seq_length. rewrite seq_nth in EJ by assumption. injection EJ as <-. lia.
  - cbn [pos_to_pos]. rewrite map_length, seq_length, repeat_length. subst w. rewrite app_length. lia.
  - split; cbn [hash_to_pos pos_to_pos]; [reflexivity|lia].
  - rewrite E. cbn [obind]. eexists. split; [reflexivity|]. split; [|auto]. rewrite map_length, seq_length in T. cbn [pos_to_pos] in L.
    rewrite repeat_length in L. split; [reflexivity|]. split; [exact T|]. cbn [ar_map]. rewrite L. subst w. now rewrite app_length.
Qed.

(** ** Access *)
Lemma ar_get_ok w a p : refs_of w a -> (p < List.length w)%nat -> ar_get a p = Ok (nth p w 0).
Proof.
  intros (<- & _) Hp. unfold ar_get, get_idx. rewrite app_length in Hp. destruct (Nat.ltb_spec p (List.length (ar_preroll a))).
  - rewrite app_nth1 by assumption. now rewrite (nth_error_nth' _ 0) by assumption.
  - rewrite app_nth2 by assumption. now rewrite (nth_error_nth' _ 0) by lia.
Qed.
Lemma ar_len w a : refs_of w a -> ar_data_len a = List.length w.
Proof. intros (<- & _). unfold ar_data_len. now rewrite app_length. Qed.

Lemma ar_key_ok w a p : refs_of w a -> ar_key a p = Ok (if Nat.ltb (p + 2) (List.length w) then Some (key_at w p) else None).
Proof.
  intro R. unfold ar_key. rewrite (ar_len w) by assumption. destruct (Nat.ltb_spec (p + 2) (List.length w)); [|reflexivity].
  rewrite !(ar_get_ok w) by (auto; lia). reflexivity.
Qed.

Lemma bm_get_ok w a p : refs_of w a -> (1 <= p)%nat -> (p + 2 < List.length w)%nat ->
  bm_get (ar_map a) (key_at w p) = Ok (cand (hash3 w) (hash3 w p) (List.length w - 2)).
Proof.
  intros (_ & T & L) H1 H2. unfold bm_get, hash_get. assert (HS := hash_small (key_at w p)). apply N.ltb_lt in HS. rewrite HS. cbn [obind].
  rewrite hash_at. rewrite (proj1 T). set (h := hash3 w p).
  assert (I : In p (cand (hash3 w) h (List.length w - 2))) by (apply cand_in; split; [lia|reflexivity]).
  destruct (cand (hash3 w) h (List.length w - 2)) as [|q l] eqn:EC; [contradiction|]. cbn [hd].
  assert (IQ : In q (cand (hash3 w) h (List.length w - 2))) by (rewrite EC; now left). apply cand_in in IQ. destruct IQ as [Hq EQ].
  rewrite (chain_spec _ _ _ T) by lia. rewrite EQ. apply cand_tail in EC. now rewrite EC.
Qed.

Lemma filter_lt_seq pos n : (pos <= n)%nat -> filter (fun q => Nat.ltb q pos) (rev (seq 1 (n - 1))) = rev (seq 1 (pos - 1)).
Proof.
  intro H. induction n as [|n IH].
  - replace pos with 0%nat by lia. reflexivity.
  - destruct (Nat.eq_dec pos (S n)) as [->|].
    + replace (rev (seq 1 (S n - 1))) with (filter (fun _ : nat => true) (rev (seq 1 (S n - 1)))) at 2.
      * apply filter_ext_in. intros q Hq. rewrite <- in_rev, in_seq in Hq. apply Nat.ltb_lt. lia.
      * generalize (rev (seq 1 (S n - 1))). induction l; cbn [filter]; congruence.
    + rewrite rev_seq_S. destruct n as [|n]; [assert (pos = 0)%nat as -> by lia; reflexivity|].
      cbn [filter]. destruct (Nat.ltb_spec (S n) pos); [lia|]. apply IH. lia.
Qed.

Lemma filter_filter {A} (f g : A -> bool) l : filter f (filter g l) = filter (fun x => g x && f x) l.
Proof. induction l as [|x l IH]; cbn [filter]; [reflexivity|]. destruct (g x); cbn [filter andb]; rewrite IH; reflexivity. Qed.

Lemma filter_lt_cand H h pos n : (pos <= n)%nat -> filter (fun q => Nat.ltb q pos) (cand H h n) = cand H h pos.
Proof.
  intro L. unfold cand. rewrite filter_filter. rewrite <- (filter_lt_seq pos n L), filter_filter. apply filter_ext. intro. apply andb_comm.
Qed.

Lemma obs_contains_hidden runs q : obs_contains runs q = hidden runs q.
Proof.
  unfold hidden. induction runs as [|[s l] runs IH]; cbn [obs_contains existsb]; [reflexivity|]. rewrite IH. destruct (_ && _); reflexivity.
Qed.

(** ** The three-byte filter *)
Lemma three_eq w q : (q + 2 < List.length w)%nat -> three w q = [nth q w 0; nth (q + 1) w 0; nth (q + 2) w 0].
Proof.
  intro H. unfold three. rewrite (skipn_nth w q (nth q w 0)) by (apply nth_error_nth'; lia). cbn [firstn].
  rewrite (skipn_nth w (S q) (nth (q + 1) w 0)) by (replace (S q) with (q + 1)%nat by lia; apply nth_error_nth'; lia). cbn [firstn].
  rewrite (skipn_nth w (S (S q)) (nth (q + 2) w 0)) by (replace (S (S q)) with (q + 2)%nat by lia; apply nth_error_nth'; lia). reflexivity.
Qed.

Definition same3 (w : list N) (p q : nat) : bool := if list_eq_dec N.eq_dec (three w q) (three w p) then true else false.

Lemma same_key_ok w a p offs : refs_of w a -> (p + 2 < List.length w)%nat -> (forall q, In q offs -> (q < p)%nat) ->
  filter_same_key a (key_at w p) offs = Ok (filter (same3 w p) offs).
Proof.
  intros R Hp. induction offs as [|q offs IH]; intro HO; cbn [filter_same_key filter]; [reflexivity|].
  assert (Hq : (q < p)%nat) by (apply HO; now left). rewrite !(ar_get_ok w) by (auto; lia). cbn [obind key_at k0 k1 k2].
  assert (X : forall (b : bool), b = same3 w p q ->
    obind (filter_same_key a (key_at w p) offs) (fun l => Ok (if b then q :: l else l)) = Ok (if same3 w p q then q :: filter (same3 w p) offs else filter (same3 w p) offs)).
  { intros b ->. rewrite IH by (intros; apply HO; now right). reflexivity. }
  unfold same3 in X at 1. rewrite !three_eq in X by lia.
  destruct (N.eqb_spec (nth q w 0) (nth p w 0)) as [E0|E0].
  - destruct (N.eqb_spec (nth (q + 1) w 0) (nth (p + 1) w 0)) as [E1|E1].
    + cbn [obind]. apply X. destruct (N.eqb_spec (nth (q + 2) w 0) (nth (p + 2) w 0)) as [E2|E2].
      * destruct (list_eq_dec _ _ _) as [|n]; [reflexivity|]. destruct n. congruence.
      * destruct (list_eq_dec _ _ _) as [e|]; [|reflexivity]. congruence.
    + cbn [obind]. apply (X false). destruct (list_eq_dec _ _ _) as [e|]; [|reflexivity]. congruence.
  - cbn [obind]. apply (X false). destruct (list_eq_dec _ _ _) as [e|]; [|reflexivity]. congruence.
Qed.

(** ** Run lengths *)
Lemma get_all_ok w a l : refs_of w a -> (forall p, In p l -> (p < List.length w)%nat) ->
  ar_get_all a l = Ok (map (fun p => nth p w 0) l).
Proof.
  intros R. induction l as [|p l IH]; intro HL; cbn [ar_get_all map]; [reflexivity|].
  rewrite (ar_get_ok w) by (auto; apply HL; now left). cbn [obind]. rewrite IH by (intros; apply HL; now right). reflexivity.
Qed.

Lemma first_mismatch_spec (m : nat -> bool) (differs : nat -> outcome bool) n : forall lo,
  (forall c, (lo <= c < lo + n)%nat -> (forall i, (lo <= i < c)%nat -> m i = true) -> differs c = Ok (negb (m c))) ->
  match first_mismatch (seq lo n) differs with
  | Ok (Some c) => (lo <= c < lo + n)%nat /\ m c = false /\ forall i, (lo <= i < c)%nat -> m i = true
  | Ok None => forall i, (lo <= i < lo + n)%nat -> m i = true
  | _ => False
  end.
Proof.
  induction n as [|n IH]; intros lo HD; cbn [seq first_mismatch].
  - intros i Hi. lia.
  - rewrite HD by lia. cbn [obind]. destruct (m lo) eqn:EM; cbn [negb].
    + specialize (IH (S lo)). assert (X : forall c, (S lo <= c < S lo + n)%nat -> (forall i, (S lo <= i < c)%nat -> m i = true) -> differs c = Ok (negb (m c))).
      { intros c Hc Hm. apply HD; [lia|]. intros i Hi. destruct (Nat.eq_dec i lo) as [->|]; [assumption|]. apply Hm. lia. }
      specialize (IH X). destruct (first_mismatch (seq (S lo) n) differs) as [[c|]| | |]; try contradiction.
      * destruct IH as (I1 & I2 & I3). split; [lia|]. split; [assumption|]. intros i Hi. destruct (Nat.eq_dec i lo) as [->|]; [assumption|]. apply I3. lia.
      * intros i Hi. destruct (Nat.eq_dec i lo) as [->|]; [assumption|]. apply IH. lia.
    + split; [lia|]. split; [assumption|]. lia.
Qed.

(** Periodicity: if everything up to [c] repeats with distance [d], the byte at [c mod d] is the one at [c - d]. *)
Lemma periodic (f : nat -> N) pos d c : (1 <= d)%nat -> (d <= c)%nat ->
  (forall i, (d <= i < c)%nat -> f (pos + i)%nat = f (pos + i - d)%nat) -> f (pos + c mod d)%nat = f (pos + c - d)%nat.
Proof.
  intros Hd Hc HP.
  assert (G : forall k, (c mod d + k * d < c)%nat -> f (pos + c mod d)%nat = f (pos + (c mod d + k * d))%nat).
  { induction k as [|k IH]; intro Hk; [f_equal; lia|]. rewrite IH by nia. rewrite (HP (c mod d + S k * d)%nat) by nia. f_equal. nia. }
  assert (D := Nat.div_mod c d ltac:(lia)). assert (1 <= c / d)%nat by (apply Nat.div_le_lower_bound; lia).
  rewrite (G (c / d - 1)%nat) by nia. f_equal. nia.
Qed.

Lemma nth_map_seq (f : nat -> N) n i : (i < n)%nat -> nth_error (map f (map (fun i => i) (seq 0 n))) i = Some (f i).
Proof. intro H. rewrite map_id. rewrite nth_error_map, (nth_error_nth' _ 0%nat) by now rewrite seq_length. rewrite seq_nth by assumption. reflexivity. Qed.

Lemma run_length_ok w a pos d : refs_of w a -> (1 <= d <= pos)%nat -> (pos + 3 <= List.length w)%nat ->
  (forall i, (i < 3)%nat -> nth (pos + i) w 0 = nth (pos + i - d) w 0) ->
  exists n, possible_run_length_at a pos (N.of_nat d) = Ok (N.of_nat n) /\ (3 <= n)%nat /\ longest_match w pos d n.
Proof.
  intros R Hd Hp H3. set (f := fun p => nth p w 0). set (m := fun i => f (pos + i)%nat =? f (pos + i - d)%nat).
  set (u := Nat.min 258 (List.length w - pos)).
  assert (HU : (3 <= u)%nat) by (subst u; lia).
  assert (FIN : forall n, (3 <= n <= u)%nat -> (forall i, (i < n)%nat -> m i = true) -> (n = u \/ m n = false /\ (n < u)%nat) -> longest_match w pos d n).
  { intros n Hn HM HE. split; [subst u; lia|]. split; [subst u; lia|]. split.
    - intros i Hi. rewrite !(nth_error_nth' w 0) by (subst u; lia). f_equal. specialize (HM i Hi). subst m f. now apply N.eqb_eq.
    - destruct HE as [->|[HE HL]].
      + subst u. lia.
      + right; right. rewrite !(nth_error_nth' w 0) by (subst u; lia). intros [= E]. subst m f. cbn beta in HE. apply N.eqb_neq in HE. contradiction. }
  assert (M3 : forall i, (i < 3)%nat -> m i = true) by (intros i Hi; subst m f; apply N.eqb_eq; now apply H3).
  unfold possible_run_length_at. rewrite (ar_len w) by assumption. destruct (Nat.ltb_spec (List.length w) pos); [lia|]. fold u.
  rewrite (get_all_ok w) by (auto; intros p HI; apply in_map_iff in HI; destruct HI as (i & <- & HI); apply in_seq in HI; subst u; lia).
  cbn [obind]. rewrite map_map, Nat2N.id.
  assert (UP : forall i, (i < u)%nat -> get_idx (map (fun x => nth (pos + x) w 0) (seq 0 u)) i = Ok (f (pos + i)%nat)).
  { intros i Hi. unfold get_idx. rewrite nth_error_map, (nth_error_nth' _ 0%nat) by now rewrite seq_length. rewrite seq_nth by assumption. reflexivity. }
  unfold range.
  assert (F1 := first_mismatch_spec m (fun cur => neqb_o (get_idx (map (fun x => nth (pos + x) w 0) (seq 0 u)) cur)
       (ar_get_at_dist a pos (N.of_nat d - N.of_nat cur))) (Nat.min d u - 3) 3).
  match type of F1 with ?A -> _ => assert (D1 : A) end.
  { intros c Hc _. rewrite UP by lia. unfold ar_get_at_dist. destruct (Nat.ltb_spec pos (N.to_nat (N.of_nat d - N.of_nat c))); [lia|].
    rewrite (ar_get_ok w) by (auto; lia). cbn [neqb_o obind]. unfold neqb_o. cbn [obind]. do 2 f_equal. subst m f. cbn beta. f_equal. f_equal. lia. }
  specialize (F1 D1). clear D1. destruct (first_mismatch _ _) as [[c|]| | |]; try contradiction; cbn [obind].
  - destruct F1 as (F1 & F2 & F3). exists c. split; [reflexivity|]. split; [lia|]. apply FIN; [lia| |].
    + intros i Hi. destruct (Nat.ltb_spec i 3); [now apply M3|apply F3; lia].
    + right. split; [assumption|lia].
  - assert (MD : forall i, (i < Nat.min d u)%nat -> m i = true).
    { intros i Hi. destruct (Nat.ltb_spec i 3); [now apply M3|apply F1; lia]. }
    assert (F2 := first_mismatch_spec m (fun cur => if Nat.eqb d 0 then Panic "attempt to calculate the remainder with a divisor of zero"
         else neqb_o (get_idx (map (fun x => nth (pos + x) w 0) (seq 0 u)) (cur mod d)) (get_idx (map (fun x => nth (pos + x) w 0) (seq 0 u)) cur)) (u - d) d).
    match type of F2 with ?A -> _ => assert (D2 : A) end.
    { intros c Hc HM. destruct (Nat.eqb_spec d 0); [lia|]. assert (c mod d < d)%nat by (apply Nat.mod_upper_bound; lia).
      rewrite !UP by lia. unfold neqb_o. cbn [obind]. do 2 f_equal.
      rewrite (periodic f pos d c) by (try lia; intros i Hi; apply N.eqb_eq, HM; lia). subst m. cbn beta. apply N.eqb_sym. }
    specialize (F2 D2). clear D2. destruct (first_mismatch _ _) as [[c|]| | |]; try contradiction; cbn [obind].
    + destruct F2 as (F2 & F3 & F4). exists c.
      assert (AL : forall i, (i < c)%nat -> m i = true).
      { intros i Hi. destruct (Nat.ltb_spec i d); [apply MD; lia|apply F4; lia]. }
      assert (3 <= c)%nat by (destruct (Nat.leb_spec 3 c); [assumption|]; rewrite M3 in F3 by lia; discriminate).
      split; [reflexivity|]. split; [assumption|]. apply FIN; [lia|assumption|]. right. split; [assumption|lia].
    + exists u. split; [reflexivity|]. split; [assumption|]. apply FIN; [lia| |now left].
      intros i Hi. destruct (Nat.ltb_spec i d); [apply MD; lia|apply F2; lia].
Qed.

(** What a proposed reference must satisfy. *)
Definition good_ref (w : list N) (pos : nat) (r : Ref) : Prop :=
  ref_ok r /\ (N.to_nat (r_dist r) < pos)%nat /\ longest_match w pos (N.to_nat (r_dist r)) (N.to_nat (ref_len r)).

Lemma map_refs_ok w a pos offs : refs_of w a -> (pos + 3 <= List.length w)%nat ->
  (forall q, In q offs -> (1 <= q < pos)%nat /\ N.of_nat (pos - q) <= 32768 /\ same3 w pos q = true) ->
  exists refs, map_refs a pos offs = Ok refs /\ map r_dist refs = map (fun q => N.of_nat (pos - q)) offs
    /\ Forall (good_ref w pos) refs.
Proof.
  intros R Hp. induction offs as [|q offs IH]; intro HO; cbn [map_refs map].
  - exists []. auto.
  - destruct (HO q (or_introl eq_refl)) as (Hq & Hd & HS).
    destruct IH as (refs & E & ED & HF); [intros; apply HO; now right|].
    destruct (N.ltb_spec 65535 (N.of_nat (pos - q))); [lia|].
    assert (H3 : forall i, (i < 3)%nat -> nth (pos + i) w 0 = nth (pos + i - (pos - q)) w 0).
    { intros i Hi. unfold same3 in HS. destruct (list_eq_dec _ _ _) as [e|]; [|discriminate]. rewrite !three_eq in e by lia.
      injection e as e0 e1 e2. destruct i as [|[|[|i]]]; [| | |lia]; symmetry.
      - rewrite Nat.add_0_r. now replace (pos - (pos - q))%nat with q by lia.
      - now replace (pos + 1 - (pos - q))%nat with (q + 1)%nat by lia.
      - now replace (pos + 2 - (pos - q))%nat with (q + 2)%nat by lia. }
    destruct (run_length_ok w a pos (pos - q) R ltac:(lia) Hp H3) as (n & EN & N3 & LM). rewrite EN. cbn [obind].
    assert (N258 : (n <= 258)%nat) by apply LM.
    assert (ER : Ref_new (N.of_nat (pos - q)) (N.of_nat n) = Ok (mkRef (N.of_nat (pos - q)) (N.of_nat n - 3))).
    { unfold Ref_new. destruct (N.leb_spec 3 (N.of_nat n)); [|lia]. destruct (N.leb_spec (N.of_nat n) 258); [|lia].
      destruct (N.leb_spec 1 (N.of_nat (pos - q))); [|lia]. destruct (N.leb_spec (N.of_nat (pos - q)) 32768); [|lia].
      do 2 f_equal. apply N.mod_small. lia. }
    rewrite ER. cbn [obind]. rewrite E. cbn [obind]. eexists. split; [reflexivity|]. cbn [map r_dist]. split; [now rewrite ED|].
    constructor; [|assumption]. unfold good_ref, ref_ok, ref_len. cbn [r_dist r_run_minus_3]. split; [lia|]. split; [lia|].
    replace (N.to_nat (N.of_nat (pos - q))) with (pos - q)%nat by lia. replace (N.to_nat (N.of_nat n - 3 + 3)) with n by lia. exact LM.
Qed.

Lemma firstn_In {A} n (l : list A) x : In x (firstn n l) -> In x l.
Proof. intro H. rewrite <- (firstn_skipn n l). apply in_or_app. now left. Qed.

Theorem ar_at_ok w a pos runs : refs_of w a ->
  if Nat.ltb (pos + 2) (List.length w)
  then exists refs, ar_at a pos runs = Ok (Some refs)
         /\ map r_dist refs = map (fun q => N.of_nat (pos - q)) (candidates w (N.to_nat (ar_limit a)) runs pos)
         /\ Forall (good_ref w pos) refs
  else ar_at a pos runs = Ok None.
Proof.
  intro R. unfold ar_at. rewrite (ar_key_ok w) by assumption. cbn [obind]. destruct (Nat.ltb_spec (pos + 2) (List.length w)) as [Hp|]; [|reflexivity].
  destruct (Nat.eqb_spec 0 pos) as [<-|HP0].
  - exists []. split; [reflexivity|]. unfold candidates. cbn [Nat.sub seq rev filter]. rewrite firstn_nil. split; [reflexivity|constructor].
  - rewrite (bm_get_ok w) by (auto; lia). cbn [obind]. rewrite filter_lt_cand by lia. unfold obscure.
    set (near := filter (fun q => (hash3 w q =? hash3 w pos) && negb (hidden runs q)) (rev (seq 1 (pos - 1)))).
    replace (filter (fun item => negb (obs_contains runs item)) (cand (hash3 w) (hash3 w pos) pos)) with near.
    2: { unfold cand. rewrite filter_filter. apply filter_ext. intro q. now rewrite obs_contains_hidden. }
    set (offs := filter (fun off => N.of_nat (pos - off) <=? 32768) (firstn (N.to_nat (ar_limit a)) near)).
    assert (IN : forall q, In q offs -> (1 <= q < pos)%nat /\ N.of_nat (pos - q) <= 32768).
    { intros q HQ. subst offs. apply filter_In in HQ. destruct HQ as [HQ HD]. apply firstn_In in HQ. subst near.
      apply filter_In in HQ. destruct HQ as [HQ _]. rewrite <- in_rev, in_seq in HQ. split; [lia|]. now apply N.leb_le. }
    rewrite (same_key_ok w) by (auto; intros q HQ; apply IN in HQ; lia). cbn [obind].
    destruct (map_refs_ok w a pos (filter (same3 w pos) offs) R ltac:(lia)) as (refs & E & ED & HF).
    { intros q HQ. apply filter_In in HQ. destruct HQ as [HQ HS]. destruct (IN q HQ). auto. }
    rewrite E. cbn [obind]. exists refs. split; [reflexivity|]. split; [|assumption]. rewrite ED. f_equal. subst offs. rewrite filter_filter. reflexivity.
Qed.
