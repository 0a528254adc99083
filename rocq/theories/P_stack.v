(** Property C03, exactly: what a bit vector is after any history of pushes and pops. *)
From Verif Require Import Base M_bit Spec Clients Clients_stack L_stack.
Local Open Scope N_scope.

(** C03: for every history the vector behaves as the stack with leftovers of [Clients_stack]. *)
Theorem C03_bitvec_exactly : forall history, let '(pops, (l, leftover)) := leftover_ops history [] [] in
  exists v, run_vec_ops history bv_new = Ok (pops, v)
    /\ bv_len v = List.length l
    /\ bv_to_list v = Ok l
    /\ (forall i b, nth_error l i = Some b -> bv_get v i = Ok b)
    /\ bv_bytes v = pack (l ++ leftover).
Proof. exact C03_lemma_exact. Qed.
Print Assumptions C03_bitvec_exactly.

(** The popped one comes back when a zero is pushed inside the byte; the next byte is not affected. *)
Example C03_exactly_case : leftover_ops [VPush true; VPush true; VPop; VPush false; VPop] [] []
    = ([Some true; Some true], ([true], [true; false; false; false; false; false; false]))
  /\ leftover_ops (map VPush (repeat true 9) ++ [VPop; VPush false]) [] [] = ([Some true], (repeat true 8 ++ [false], repeat false 7)).
Proof. split; reflexivity. Qed.

(** C03: the contents agree with a plain list at every point of a history exactly when no zero is pushed where a
    one is left over. *)
Theorem C03_stack_exactly : forall history,
  (forall n, exists pops v, run_vec_ops (firstn n history) bv_new = Ok (pops, v) /\ bv_to_list v = Ok (snd (list_vec_ops (firstn n history) [])))
  <-> no_stale_one history [] [].
Proof. exact C03_lemma_iff. Qed.
Print Assumptions C03_stack_exactly.

(** C03: and then every pop result, the length and the contents are those of the plain list. *)
Theorem C03_bitvec_stack_clean_partial : forall history, no_stale_one history [] [] ->
  exists v, run_vec_ops history bv_new = Ok (fst (list_vec_ops history []), v)
    /\ bv_len v = List.length (snd (list_vec_ops history []))
    /\ bv_to_list v = Ok (snd (list_vec_ops history [])).
Proof. exact C03_lemma_stack. Qed.
Print Assumptions C03_bitvec_stack_clean_partial.

Example C03_clean_case : no_stale_one ([VPush false; VPop; VPush false; VPush true; VPop; VPush true] ++ map VPush (repeat true 7) ++ [VPop; VPush false]) [] []
  /\ ~ no_stale_one [VPush true; VPush true; VPop; VPush false] [] [].
Proof. split; [cbn; intuition congruence|]. cbn. intros (_ & _ & H & _). specialize (H eq_refl). discriminate. Qed.

(** C03: two vectors are equal ([==]) exactly when contents and leftovers are. *)
Theorem C03_equality_exactly : forall one other pops v pops' v',
  run_vec_ops one bv_new = Ok (pops, v) -> run_vec_ops other bv_new = Ok (pops', v') ->
  (bv_eqb v v' = true <-> snd (leftover_ops one [] []) = snd (leftover_ops other [] [])).
Proof. exact C03_lemma_eq. Qed.
Print Assumptions C03_equality_exactly.

(** C03 is false of the code for [==] too: two vectors with the same contents that are not equal. *)
Theorem C03_equality_refuted : exists one other pops v pops' v' l,
  run_vec_ops one bv_new = Ok (pops, v) /\ run_vec_ops other bv_new = Ok (pops', v')
  /\ bv_to_list v = Ok l /\ bv_to_list v' = Ok l /\ bv_eqb v v' = false.
Proof. exact C03_lemma_eq_refuted. Qed.
Print Assumptions C03_equality_refuted.

(** C03: a vector made from bytes is one on which their bits were pushed, least significant first. *)
Theorem C03_from_slice : forall bytes ops, bytes_ok bytes ->
  run_vec_ops ops (bv_from_slice bytes) = run_vec_ops (map VPush (bits_of_bytes bytes) ++ ops) bv_new.
Proof. exact C03_lemma_slice. Qed.
Print Assumptions C03_from_slice.

Example C03_slice_case : bytes_ok [5; 128] /\ bits_of_bytes [5; 128] = [true; false; true; false; false; false; false; false] ++ repeat false 7 ++ [true]
  /\ exists v, run_vec_ops [VPop; VPop; VPush true] (bv_from_slice [5; 128]) = Ok ([Some true; Some false], v).
Proof. split; [repeat constructor|]. split; [vm_compute; reflexivity|]. eexists. vm_compute. reflexivity. Qed.
