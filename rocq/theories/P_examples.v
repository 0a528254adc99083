(** Properties C72 and C73: the other two examples. *)
From Verif Require Import Base M_bit M_lib M_all_refs M_text M_examples Spec Clients_debug Clients_examples L_P_examples L_P_lines.
From Coq Require Import Permutation.
Local Open Scope N_scope.

(** C72: in whatever order the hash map and its sets are iterated, each line lists, sorted and with the right count, all the
    typeable strings with some one hash; any two strings with equal hashes are listed together, unless they are the only
    two with that hash and differ only in their first character; and no group is listed twice. *)
Theorem C72_listing : forall order, iterates (fill_buckets typeable_triples) order ->
  (forall n parts, In (n, parts) (collisions_lines order) ->
     n = List.length parts /\ (2 <= n)%nat /\ ascending sorts_before parts
     /\ (exists h, forall s, In s parts <-> with_hash h s)
     /\ forall s t, parts = [s; t] -> ~ same_tail s t)
  /\ (forall h s t, with_hash h s -> with_hash h t -> s <> t ->
        (exists n parts, In (n, parts) (collisions_lines order) /\ In s parts /\ In t parts)
        \/ (same_tail s t /\ forall u, with_hash h u -> u = s \/ u = t))
  /\ NoDup (map snd (collisions_lines order)).
Proof. exact C72_lemma. Qed.
Print Assumptions C72_listing.

(** C72: every typeable string collides with another, so no group is passed over for having one member only. *)
Theorem C72_never_alone : forall h s, with_hash h s -> exists t, with_hash h t /\ t <> s /\ same_tail s t.
Proof. exact C72_lemma_alone. Qed.
Print Assumptions C72_never_alone.

(** C72: the text printed determines the lines. *)
Theorem C72_text : forall l1 l2, Forall listing_line l1 -> Forall listing_line l2 ->
  List.concat (map collision_text l1) = List.concat (map collision_text l2) -> l1 = l2.
Proof. exact C72_lemma_text. Qed.
Print Assumptions C72_text.

(** C72: a line is the number, a blank and the strings with commas between them. *)
Theorem C72_line : forall n s more,
  collision_text (n, s :: more) = decimal (N.of_nat n) ++ text " " ++ s ++ flat_map (fun t => text ", " ++ t) more ++ [10].
Proof. exact C72_lemma_line. Qed.
Print Assumptions C72_line.

(** An order of iteration exists, and there are strings to list: "ABC", "aBC" and "@bC" have the same hash. *)
Example C72_case : iterates (fill_buckets typeable_triples) (fill_buckets typeable_triples)
  /\ with_hash 3075 [65; 66; 67] /\ with_hash 3075 [97; 66; 67] /\ with_hash 3075 [64; 98; 67]
  /\ listing_line (2%nat, [[65; 66; 67]; [97; 66; 67]])
  /\ collision_text (2%nat, [[65; 66; 67]; [97; 66; 67]]) = text "2 ABC, aBC" ++ [10].
Proof.
  split.
  - exists (fill_buckets typeable_triples). split; [apply Permutation_refl|]. generalize (fill_buckets typeable_triples). induction b; constructor; auto.
  - assert (W : forall s, List.length s = 3%nat -> forallb (fun c => (32 <=? c) && (c <=? 126)) s = true -> hash3 s 0 = 3075 -> with_hash 3075 s).
    { intros s L F E. split; [exact L|]. split; [|exact E]. apply Forall_forall. intros c HC. apply (proj1 (forallb_forall _ _) F) in HC. apply andb_true_iff in HC. now rewrite !N.leb_le in HC. }
    split; [apply W; vm_compute; reflexivity|]. split; [apply W; vm_compute; reflexivity|]. split; [apply W; vm_compute; reflexivity|].
    split; [split; [reflexivity|split; [cbn; repeat constructor|repeat constructor]]|vm_compute; reflexivity].
Qed.

(** C73: whatever the random numbers, the endless example prints only lines of seven graphic characters; it panics exactly
    when its output fails, having written a part of such lines. *)
Theorem C73_lines : forall G (draw : G -> nat * G) rounds rng limit,
  let '(o, out) := hard_loop draw rounds rng (mkSink [] limit) in
  exists lines, Forall hard_line lines /\
  ((o = Ok tt /\ List.length lines = rounds /\ written out = List.concat lines)
   \/ (exists m room, o = Panic m /\ limit = Some room /\ (List.length lines <= rounds)%nat /\ (room < List.length (List.concat lines))%nat /\ written out = firstn room (List.concat lines))).
Proof. exact C73_lemma. Qed.
Print Assumptions C73_lines.

Example C73_case : hard_loop (fun n => (n, (n + 5)%nat)) 2 0%nat (mkSink [] None) = (Ok tt, mkSink (text "!&+05:?" ++ [10] ++ text "DINSX]b" ++ [10]) None)
  /\ hard_loop (fun n => (n, (n + 5)%nat)) 2 0%nat (mkSink [] (Some 11%nat)) = (Panic "called `Result::unwrap()` on an `Err` value", mkSink (text "!&+05:?" ++ [10] ++ text "DIN") (Some 0%nat)).
Proof. split; vm_compute; reflexivity. Qed.
