(** Proofs of C50. *)
From Verif Require Import Base M_filter Spec Clients.
Local Open Scope model_scope.

Lemma reads_through {S} (read : nat -> M S (list N)) : (forall n s got s', read n s = (Ok got, s') -> (List.length got <= n)%nat) ->
  forall sizes s h, do_reads (fr_read read) sizes (mkFilter s h)
    = (fst (do_reads read sizes s), mkFilter (snd (do_reads read sizes s)) (h ++ bytes_read (fst (do_reads read sizes s)))).
Proof.
  intro HR. induction sizes as [|n sizes IH]; intros s h; cbn [do_reads fst snd].
  - cbn [bytes_read flat_map]. now rewrite app_nil_r.
  - unfold fr_read at 1. cbn [f_inner f_hash]. assert (X := HR n s). destruct (read n s) as [[got|e|m|] s1].
    + rewrite (proj2 (Nat.leb_le _ _)) by (eapply X; reflexivity). rewrite IH. destruct (do_reads read sizes s1) as [os s2].
      cbn [fst snd bytes_read flat_map]. now rewrite app_assoc.
    + rewrite IH. destruct (do_reads read sizes s1) as [os s2]. reflexivity.
    + cbn [fst snd bytes_read flat_map app]. now rewrite app_nil_r.
    + cbn [fst snd bytes_read flat_map app]. now rewrite app_nil_r.
Qed.

Lemma C50_lemma_read : forall (S : Type) (read : nat -> M S (list N)) (sha512 : list N -> list N) sizes s,
  (forall n s got s', read n s = (Ok got, s') -> (List.length got <= n)%nat) ->
  let '(plain, s') := do_reads read sizes s in
  let '(filtered, f) := do_reads (fr_read read) sizes (filter_new s) in
  filtered = plain /\ filter_into_inner f = s' /\ filter_hash sha512 f = sha512 (bytes_read plain).
Proof.
  intros S read sha sizes s HR. unfold filter_new. rewrite (reads_through read HR). destruct (do_reads read sizes s) as [plain s'].
  cbn [fst snd app]. auto.
Qed.

Lemma writes_through {S} (write : list N -> M S nat) flush : (forall buf s n s', write buf s = (Ok n, s') -> (n <= List.length buf)%nat) ->
  forall ops s h, do_writes (fw_write write) (fw_flush flush) ops (mkFilter s h)
    = (fst (do_writes write flush ops s), mkFilter (snd (do_writes write flush ops s)) (h ++ bytes_accepted ops (fst (do_writes write flush ops s)))).
Proof.
  intro HW. induction ops as [|op ops IH]; intros s h; cbn [do_writes fst snd].
  - unfold bytes_accepted. cbn [combine flat_map]. now rewrite app_nil_r.
  - destruct op as [buf|]; cbn [do_write].
    + unfold fw_write at 1. cbn [f_inner f_hash]. assert (X := HW buf s). destruct (write buf s) as [[n|e|m|] s1].
      * rewrite (proj2 (Nat.leb_le _ _)) by (eapply X; reflexivity). rewrite IH. destruct (do_writes write flush ops s1) as [os s2].
        unfold bytes_accepted. cbn [fst snd combine flat_map]. now rewrite app_assoc.
      * rewrite IH. destruct (do_writes write flush ops s1) as [os s2]. reflexivity.
      * unfold bytes_accepted. cbn [fst snd combine flat_map app]. destruct ops; cbn [combine flat_map app]; now rewrite app_nil_r.
      * unfold bytes_accepted. cbn [fst snd combine flat_map app]. destruct ops; cbn [combine flat_map app]; now rewrite app_nil_r.
    + unfold fw_flush at 1, zoom. cbn [f_inner f_hash]. destruct (flush s) as [[u|e|m|] s1]; cbn [obind].
      * rewrite IH. destruct (do_writes write flush ops s1) as [os s2]. reflexivity.
      * rewrite IH. destruct (do_writes write flush ops s1) as [os s2]. reflexivity.
      * unfold bytes_accepted. cbn [fst snd combine flat_map app]. destruct ops; cbn [combine flat_map app]; now rewrite app_nil_r.
      * unfold bytes_accepted. cbn [fst snd combine flat_map app]. destruct ops; cbn [combine flat_map app]; now rewrite app_nil_r.
Qed.

Lemma C50_lemma_write : forall (S : Type) (write : list N -> M S nat) (flush : M S unit) (sha512 : list N -> list N) ops s,
  (forall buf s n s', write buf s = (Ok n, s') -> (n <= List.length buf)%nat) ->
  let '(plain, s') := do_writes write flush ops s in
  let '(filtered, f) := do_writes (fw_write write) (fw_flush flush) ops (filter_new s) in
  filtered = plain /\ filter_into_inner f = s' /\ filter_hash sha512 f = sha512 (bytes_accepted ops plain).
Proof.
  intros S write flush sha ops s HW. unfold filter_new. rewrite (writes_through write flush HW). destruct (do_writes write flush ops s) as [plain s'].
  cbn [fst snd app]. auto.
Qed.
