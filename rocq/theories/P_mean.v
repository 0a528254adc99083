(** Property C97: the mean word length of the cost estimate (lib/src/serialise.rs). *)
From Verif Require Import Base M_bit M_lib M_code_tree M_huffman M_serialise Spec Clients L_P_mean.
Local Open Scope N_scope.

(** C97: the exact value, which is within one bit of the mean, and between the shortest and the longest word. *)
Theorem C97_mean : forall ll dl lt dt, (List.length ll <= 288)%nat -> (List.length dl <= 288)%nat -> tree_new ll = Ok lt -> tree_new dl = Ok dt ->
  exists ls, Lengths_new lt dt = Ok ls
    /\ let words := filter (fun l => (1 <=? l) && (l <=? 15)) ll in let count := N.of_nat (List.length words) in let mean := ls_mean_literal_len ls in
       mean = sum_list words / (count + 1) + 1
       /\ mean * count <= sum_list words + count /\ sum_list words <= mean * count + count
       /\ (exists w, In w words /\ w <= mean) /\ (exists w, In w words /\ mean <= w).
Proof. exact C97_lemma. Qed.
Print Assumptions C97_mean.

(** The fixed tables: 152 words of 8 bits, 112 of 9, 24 of 7. *)
Example C97_case : exists lt dt ls, tree_new fixed_ll = Ok lt /\ tree_new fixed_dl = Ok dt /\ Lengths_new lt dt = Ok ls
  /\ (List.length fixed_ll <= 288)%nat /\ (List.length fixed_dl <= 288)%nat /\ ls_mean_literal_len ls = 9
  /\ sum_list (filter (fun l => (1 <=? l) && (l <=? 15)) fixed_ll) = 2392.
Proof.
  eexists. eexists. eexists. split; [vm_compute; reflexivity|]. split; [vm_compute; reflexivity|]. split; [vm_compute; reflexivity|].
  split; [apply Nat.leb_le; vm_compute; reflexivity|]. split; [apply Nat.leb_le; vm_compute; reflexivity|]. split; vm_compute; reflexivity.
Qed.
(** The smallest one, and one with words of 1 to 15 bits. *)
Example C97_cases : exists t u ls, tree_new [1; 1] = Ok t /\ tree_new [1; 2; 3; 4; 5; 6; 7; 8; 9; 10; 11; 12; 13; 14; 15; 15] = Ok u
  /\ Lengths_new u t = Ok ls /\ ls_mean_literal_len ls = 8.
Proof.
  eexists. eexists. eexists. split; [vm_compute; reflexivity|]. split; [vm_compute; reflexivity|]. split; vm_compute; reflexivity.
Qed.
