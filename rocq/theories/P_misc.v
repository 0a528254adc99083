(** Properties C50 and C51: the hashing filters (lib/src/filter.rs) and the cost estimate (lib/src/serialise.rs). *)
From Verif Require Import Base M_bit M_lib M_code_tree M_huffman M_serialise M_filter Spec Clients L_P_filter L_P_cost.
Local Open Scope N_scope.

(** C50, reading: for every stream, every sequence of reads and every result the stream gives, including errors. *)
Theorem C50_filter_read : forall (S : Type) (read : nat -> M S (list N)) (sha512 : list N -> list N) sizes s,
  (forall n s got s', read n s = (Ok got, s') -> (List.length got <= n)%nat) ->
  let '(plain, s') := do_reads read sizes s in
  let '(filtered, f) := do_reads (fr_read read) sizes (filter_new s) in
  filtered = plain /\ filter_into_inner f = s' /\ filter_hash sha512 f = sha512 (bytes_read plain).
Proof. exact C50_lemma_read. Qed.
Print Assumptions C50_filter_read.

(** C50, writing and flushing. *)
Theorem C50_filter_write : forall (S : Type) (write : list N -> M S nat) (flush : M S unit) (sha512 : list N -> list N) ops s,
  (forall buf s n s', write buf s = (Ok n, s') -> (n <= List.length buf)%nat) ->
  let '(plain, s') := do_writes write flush ops s in
  let '(filtered, f) := do_writes (fw_write write) (fw_flush flush) ops (filter_new s) in
  filtered = plain /\ filter_into_inner f = s' /\ filter_hash sha512 f = sha512 (bytes_accepted ops plain).
Proof. exact C50_lemma_write. Qed.
Print Assumptions C50_filter_write.

(** A stream that delivers at most two bytes per call and fails once: its state is what it has left. *)
Definition hiccup_read (n : nat) : M (list N) (list N) := fun s =>
  match s with
  | 255 :: s' => (Err (EIo OtherIo), s')
  | _ => (Ok (firstn (Nat.min n 2) s), skipn (Nat.min n 2) s)
  end.
Definition hiccup_write (buf : list N) : M (list N) nat := fun s =>
  match buf with
  | 255 :: _ => (Err (EIo OtherIo), s)
  | _ => (Ok (Nat.min 2 (List.length buf)), s ++ firstn 2 buf)
  end.
Example C50_case :
  (forall n s got s', hiccup_read n s = (Ok got, s') -> (List.length got <= n)%nat)
  /\ (forall buf s n s', hiccup_write buf s = (Ok n, s') -> (n <= List.length buf)%nat)
  /\ fst (do_reads hiccup_read [3; 1; 4; 5; 6]%nat [1; 2; 3; 255; 4; 5; 6]) = [Ok [1; 2]; Ok [3]; Err (EIo OtherIo); Ok [4; 5]; Ok [6]]
  /\ filter_hash (fun bs => bs) (snd (do_reads (fr_read hiccup_read) [3; 1; 4; 5; 6]%nat (filter_new [1; 2; 3; 255; 4; 5; 6])))
     = [1; 2; 3; 4; 5; 6]
  /\ filter_hash (fun bs => bs) (snd (do_writes (fw_write hiccup_write) (fw_flush (ret tt))
        [SWrite [1; 2; 3]; SWrite [255]; SFlush; SWrite [9]] (filter_new []))) = [1; 2; 9].
Proof.
  split; [|split; [|split; [|split]]]; try (vm_compute; reflexivity).
  - intros n s got s' H. unfold hiccup_read in H. assert (K : got = [] \/ got = firstn (Nat.min n 2) s).
    { destruct s as [|x s]; [injection H as <- _; auto|]. destruct (N.eq_dec x 255) as [->|D]; [discriminate|]. right.
      destruct x as [|p]; [now injection H as <- _|]. do 8 (destruct p as [p|p|]; try (now injection H as <- _)). congruence. }
    destruct K as [K|K]; rewrite K; [apply Nat.le_0_l|]. rewrite firstn_length. apply Nat.le_trans with (Nat.min n 2); [apply Nat.le_min_l|apply Nat.le_min_l].
  - intros buf s n s' H. unfold hiccup_write in H. assert (K : n = Nat.min 2 (List.length buf)).
    { destruct buf as [|x buf]; [now injection H as <- _|]. destruct (N.eq_dec x 255) as [->|D]; [discriminate|].
      destruct x as [|p]; [now injection H as <- _|]. do 8 (destruct p as [p|p|]; try (now injection H as <- _)). congruence. }
    rewrite K. apply Nat.le_min_r.
Qed.

(** C51: the estimate always returns; it is None exactly for the codes the encoder cannot write; and the bits
    emitted for any codes are the sum of the estimates, of the end-of-block word, and of the extra bits of the
    match lengths.  Missing from the full property: the estimates leave those extra bits out (below). *)
Theorem C51_cost_partial : forall ll dl lt dt ls, (List.length ll <= 288)%nat -> (List.length dl <= 288)%nat ->
  tree_new ll = Ok lt -> tree_new dl = Ok dt -> Lengths_new lt dt = Ok ls ->
  (forall c, code_ok c -> exists o, Lengths_length ls c = Ok o)
  /\ (forall codes costs eob, Forall code_ok codes -> rfc_code ll 256 = Some eob ->
        Forall2 (fun c n => Lengths_length ls c = Ok (Some n)) codes costs ->
        exists w, compressed_codes lt (Some dt) codes (bw_new new_sink) = (Ok tt, w)
          /\ bits_out w = sum_list costs + sum_list (map length_extra_bits codes) + N.of_nat (List.length eob))
  /\ (forall codes c, Forall code_ok codes -> In c codes -> Lengths_length ls c = Ok None ->
        fst (compressed_codes lt (Some dt) codes (bw_new new_sink)) <> Ok tt).
Proof. exact C51_lemma. Qed.
Print Assumptions C51_cost_partial.

Example C51_case : exists lt dt ls,
  FIXED_LENGTH_TREE = Ok lt /\ FIXED_DISTANCE_TREE = Ok dt /\ Lengths_new lt dt = Ok ls
  /\ (List.length fixed_ll <= 288)%nat /\ (List.length fixed_dl <= 288)%nat
  /\ tree_new fixed_ll = Ok lt /\ tree_new fixed_dl = Ok dt
  /\ Forall2 (fun c n => Lengths_length ls c = Ok (Some n)) [Literal 65; Literal 200; Reference (mkRef 5 7)] [8; 9; 13]
  /\ length_extra_bits (Reference (mkRef 5 7)) = 0 /\ length_extra_bits (Reference (mkRef 5 200)) = 5.
Proof.
  eexists. eexists. eexists. split; [vm_compute; reflexivity|]. split; [vm_compute; reflexivity|]. split; [vm_compute; reflexivity|].
  split; [apply Nat.leb_le; vm_compute; reflexivity|]. split; [apply Nat.leb_le; vm_compute; reflexivity|].
  split; [vm_compute; reflexivity|]. split; [vm_compute; reflexivity|].
  split; [repeat (constructor; [vm_compute; reflexivity|]); constructor|]. split; vm_compute; reflexivity.
Qed.

(** C51 is false of the code: a match of length 11 costs one bit more than the estimate. *)
Theorem C51_cost_refuted : exists lt dt ls n w eob,
  FIXED_LENGTH_TREE = Ok lt /\ FIXED_DISTANCE_TREE = Ok dt /\ Lengths_new lt dt = Ok ls
  /\ Lengths_length ls (Reference (mkRef 1 8)) = Ok (Some n)
  /\ compressed_codes lt (Some dt) [Reference (mkRef 1 8)] (bw_new new_sink) = (Ok tt, w)
  /\ rfc_code fixed_ll 256 = Some eob
  /\ bits_out w = n + 1 + N.of_nat (List.length eob).
Proof. exact C51_lemma_refuted. Qed.
Print Assumptions C51_cost_refuted.
