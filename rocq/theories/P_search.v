(** Properties C32-C35: the match finder (lib/src/all_refs.rs, back_map.rs, obscure.rs). *)
From Verif Require Import Base M_lib M_all_refs Spec L_P_search.
From Coq Require Import Sorted.
Local Open Scope N_scope.

(** C32: a proposed reference is legal, reaches back inside the known data, and copying it gives the data. *)
Theorem C32_proposals_correct : forall preroll data limit a pos runs refs r,
  with_sixteen preroll data limit = Ok a -> ar_at a pos runs = Ok (Some refs) -> In r refs ->
  let w := preroll ++ data in
  1 <= r_dist r <= 32768 /\ 3 <= ref_len r <= 258
  /\ (N.to_nat (r_dist r) <= pos)%nat
  /\ (pos + N.to_nat (ref_len r) <= List.length w)%nat
  /\ lz_copy (N.to_nat (ref_len r)) (N.to_nat (r_dist r)) (firstn pos w) = firstn (pos + N.to_nat (ref_len r)) w.
Proof. exact C32_lemma. Qed.
Print Assumptions C32_proposals_correct.

(** C33: its length is the longest possible. *)
Theorem C33_proposals_maximal : forall preroll data limit a pos runs refs r,
  with_sixteen preroll data limit = Ok a -> ar_at a pos runs = Ok (Some refs) -> In r refs ->
  longest_match (preroll ++ data) pos (N.to_nat (r_dist r)) (N.to_nat (ref_len r)).
Proof. exact C33_lemma. Qed.
Print Assumptions C33_proposals_maximal.

(** C34: the proposals are exactly the candidates of the specification, nearest first. *)
Theorem C34_complete_and_ordered : forall preroll data limit a pos runs refs,
  with_sixteen preroll data limit = Ok a -> ar_at a pos runs = Ok (Some refs) ->
  map r_dist refs = map (fun q => N.of_nat (pos - q)) (candidates (preroll ++ data) (N.to_nat limit) runs pos)
  /\ StronglySorted N.lt (map r_dist refs).
Proof. exact C34_lemma. Qed.
Print Assumptions C34_complete_and_ordered.

(** C34: when the limit is no obstacle, exactly the earlier positions but 0 that are within 32768, not hidden
    and have the same three bytes. *)
Theorem C34_complete_without_limit : forall preroll data limit a pos runs refs q,
  with_sixteen preroll data limit = Ok a -> ar_at a pos runs = Ok (Some refs) ->
  (pos <= N.to_nat limit)%nat ->
  ((exists r, In r refs /\ (pos = q + N.to_nat (r_dist r))%nat)
   <-> (1 <= q < pos)%nat /\ (pos - q <= N.to_nat 32768)%nat /\ hidden runs q = false
       /\ three (preroll ++ data) q = three (preroll ++ data) pos).
Proof. exact C34_lemma_all. Qed.
Print Assumptions C34_complete_without_limit.

(** C35: the search always returns. *)
Theorem C35_search_total : forall preroll data limit, exists a, with_sixteen preroll data limit = Ok a
  /\ forall pos runs, exists found, ar_at a pos runs = Ok found
       /\ (found = None <-> (List.length preroll + List.length data <= pos + 2)%nat)
       /\ (pos = 0%nat -> found = None \/ found = Some [])
       /\ forall refs r, found = Some refs -> In r refs -> (N.to_nat (r_dist r) < pos)%nat.
Proof. exact C35_lemma. Qed.
Print Assumptions C35_search_total.

(** Preroll, an overlapping match, several candidates and a hidden one. *)
Example C32_case : exists a refs, with_sixteen [7; 1; 2; 3; 4] [1; 2; 3; 1; 2; 3; 1; 2; 3; 4; 5] 9 = Ok a
  /\ ar_at a 8 [(4%nat, 3)] = Ok (Some refs) /\ refs = [mkRef 7 0]
  /\ (exists refs', ar_at a 8 [] = Ok (Some refs') /\ refs' = [mkRef 3 3; mkRef 7 0]).
Proof.
  eexists. eexists. split; [vm_compute; reflexivity|]. split; [vm_compute; reflexivity|]. split; [reflexivity|].
  eexists. split; [vm_compute; reflexivity|]. reflexivity.
Qed.
Example C34_case : candidates [7; 1; 2; 3; 4; 1; 2; 3; 1; 2; 3; 1; 2; 3; 4; 5] 9 [] 8 = [5%nat; 1%nat]
  /\ candidates [7; 1; 2; 3; 4; 1; 2; 3; 1; 2; 3; 1; 2; 3; 4; 5] 1 [] 8 = [5%nat].
Proof. split; vm_compute; reflexivity. Qed.
(** Both proposals of [C32_case] are as long as they can be. *)
Example C33_case : longest_match ([7; 1; 2; 3; 4] ++ [1; 2; 3; 1; 2; 3; 1; 2; 3; 4; 5]) 8 7 3
  /\ nth_error [7; 1; 2; 3; 4; 1; 2; 3; 1; 2; 3; 1; 2; 3; 4; 5] (8 - 7 + 3) <> nth_error [7; 1; 2; 3; 4; 1; 2; 3; 1; 2; 3; 1; 2; 3; 4; 5] (8 + 3)
  /\ longest_match ([7; 1; 2; 3; 4] ++ [1; 2; 3; 1; 2; 3; 1; 2; 3; 4; 5]) 8 3 6.
Proof.
  destruct C32_case as (a & refs & EW & EA & -> & refs' & EA' & ->). split; [exact (C33_proposals_maximal _ _ _ _ _ _ _ (mkRef 7 0) EW EA (or_introl eq_refl))|].
  split; [discriminate|]. exact (C33_proposals_maximal _ _ _ _ _ _ _ (mkRef 3 3) EW EA' (or_introl eq_refl)).
Qed.
(** Positions at the start, in the middle and too close to the end. *)
Example C35_case : exists a, with_sixteen [] [1; 2; 3; 1; 2; 3; 1; 2; 3] 9 = Ok a
  /\ ar_at a 0 [] = Ok (Some []) /\ ar_at a 6 [] = Ok (Some [mkRef 3 0]) /\ ar_at a 7 [] = Ok None /\ ar_at a 100 [] = Ok None.
Proof. eexists. split; [vm_compute; reflexivity|]. split; [vm_compute; reflexivity|]. split; [vm_compute; reflexivity|]. split; vm_compute; reflexivity. Qed.
