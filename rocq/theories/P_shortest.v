(** Property C94: hints are stored in the fewest bytes (lib/src/serialise_trace.rs). *)
From Verif Require Import Base M_lib M_all_refs M_technique M_trace Spec L_P_shortest.
Local Open Scope N_scope.

(** C94: no other bytes that read back as the same hints are fewer. *)
Theorem C94_shortest : forall hints bytes other, st_write hints = Ok bytes -> bytes_ok other ->
  fst (st_read (mkSource other UnexpectedEof)) = Ok hints -> (List.length bytes <= List.length other)%nat.
Proof. exact C94_lemma. Qed.
Print Assumptions C94_shortest.

(** The same three hints in four bytes, which is what is written, and in six. *)
Example C94_case : st_write [Correct; Correct; ActuallyLiteral] = Ok [2; 128; 0; 0]
  /\ fst (st_read (mkSource [2; 128; 0; 0] UnexpectedEof)) = Ok [Correct; Correct; ActuallyLiteral]
  /\ fst (st_read (mkSource [1; 128; 1; 128; 0; 0] UnexpectedEof)) = Ok [Correct; Correct; ActuallyLiteral].
Proof. split; [reflexivity|]. split; vm_compute; reflexivity. Qed.

(** Nor are any others as few, if no run of correct guesses needs more than one record. *)
Theorem C94_only_shortest : forall hints bytes other, st_write hints = Ok bytes -> bytes_ok other ->
  fst (st_read (mkSource other UnexpectedEof)) = Ok hints -> List.length other = List.length bytes ->
  (forall before n after, hints = before ++ repeat Correct n ++ after -> N.of_nat n <= 32767) -> other = bytes.
Proof. exact C94_lemma_only. Qed.
Print Assumptions C94_only_shortest.

Example C94_only_case : forall before n after,
  [Correct; Correct; ActuallyLiteral] = before ++ repeat Correct n ++ after -> N.of_nat n <= 32767.
Proof. intros before n after H. apply (f_equal (@List.length _)) in H. rewrite !app_length, repeat_length in H. cbn [List.length] in H. lia. Qed.

(** What is written: two zeros for a literal, the distance and the length less 3 for a reference, and for a run of
    correct guesses as many records of 32767 as leave something for a last one. *)
Theorem C94_bytes : forall hints bytes, st_write hints = Ok bytes ->
  st_write (ActuallyLiteral :: hints) = Ok ([0; 0] ++ bytes)
  /\ (forall r, ref_ok r -> st_write (Actually r :: hints) = Ok ([r_dist r mod 256; r_dist r / 256; ref_len r - 3] ++ bytes))
  /\ (forall q last, 1 <= last <= 32767 -> hd_error hints <> Some Correct ->
       st_write (repeat Correct (N.to_nat (q * 32767 + last)) ++ hints)
       = Ok (List.concat (repeat [255; 255] (N.to_nat q)) ++ [last mod 256; 128 + last / 256] ++ bytes)).
Proof. exact C94_lemma_bytes. Qed.
Print Assumptions C94_bytes.

Example C94_bytes_case : st_write (Actually (mkRef 300 7) :: repeat Correct (N.to_nat (0 * 32767 + 300)) ++ [ActuallyLiteral])
  = Ok [44; 1; 7; 44; 129; 0; 0].
Proof. vm_compute. reflexivity. Qed.
