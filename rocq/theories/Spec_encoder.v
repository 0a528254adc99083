(** Specification of the encoders a technique imitates, over the whole text [w] (preroll and data).  Nothing
    here refers to the model; only the types [Ref] and [Code] are shared. *)
From Verif Require Import Base M_bit M_lib Spec.
Local Open Scope N_scope.

(** How a match is looked for: the nearest positions by hash that are looked at, how many of the true matches
    among them are tried, the length at which the search stops, and whether 3-byte matches more than 4096
    back are refused. *)
Record search := mkSearch { nearest : nat; chain : nat; nice : N; no_far_threes : bool }.

(** [r] is the match the search finds at [pos], positions inside [runs] being unknown to it. *)
Definition match_at (w : list N) (s : search) (runs : list (nat * N)) (pos : nat) (r : Ref) : Prop :=
  exists refs,
    Forall2 (fun q r' => r_dist r' = N.of_nat (pos - q) /\ longest_match w pos (pos - q) (N.to_nat (ref_len r')))
            (firstn (chain s) (candidates w (nearest s) runs pos)) refs
    /\ first_best ref_len (nice s) refs r
    /\ (no_far_threes s = true -> 3 < ref_len r \/ r_dist r <= 4096).

Definition no_match (m : Ref -> Prop) : Prop := forall r, ~ m r.

(** ** Three ways to choose codes, given what the search finds.  [find pos r] is the plain search. *)

(** Greedy: take a match where there is one. *)
Inductive greedy_choice (w : list N) (find : nat -> Ref -> Prop) (pos : nat) : list Code -> Prop :=
| greedy_match r : find pos r -> greedy_choice w find pos [Reference r]
| greedy_literal b : no_match (find pos) -> nth_error w pos = Some b -> greedy_choice w find pos [Literal b].

(** Lazy: with the match [r] at [pos] in hand, take a literal instead as long as the next position has a
    longer match; [find_next len] is the search made there while holding a match of length [len]. *)
Inductive lazy_from (w : list N) (find_next : N -> nat -> Ref -> Prop) : nat -> Ref -> list Code -> Prop :=
| lazy_take pos r : (forall r', find_next (ref_len r) (pos + 1)%nat r' -> ref_len r' <= ref_len r) ->
    lazy_from w find_next pos r [Reference r]
| lazy_defer pos r r' b codes : find_next (ref_len r) (pos + 1)%nat r' -> ref_len r < ref_len r' ->
    nth_error w pos = Some b -> lazy_from w find_next (pos + 1) r' codes ->
    lazy_from w find_next pos r (Literal b :: codes).

Inductive lazy_choice (w : list N) (find : nat -> Ref -> Prop) (find_next : N -> nat -> Ref -> Prop) (pos : nat)
  : list Code -> Prop :=
| lazy_match r codes : find pos r -> lazy_from w find_next pos r codes -> lazy_choice w find find_next pos codes
| lazy_literal b : no_match (find pos) -> nth_error w pos = Some b -> lazy_choice w find find_next pos [Literal b].

(** Three-zip: a match of 3 gives way to a match of more than 3 at the next position, or to a match of more
    than 4 two positions on; of these two the longer, the nearer if they are equal. *)
Inductive three_choice (w : list N) (find : nat -> Ref -> Prop) (pos : nat) : list Code -> Prop :=
| three_none b : no_match (find pos) -> nth_error w pos = Some b -> three_choice w find pos [Literal b]
| three_long r : find pos r -> ref_len r <> 3 -> three_choice w find pos [Reference r]
| three_keep r : find pos r -> ref_len r = 3 ->
    (forall r2, find (pos + 1)%nat r2 -> ref_len r2 <= 3) -> (forall r3, find (pos + 2)%nat r3 -> ref_len r3 <= 4) ->
    three_choice w find pos [Reference r]
| three_second r r2 b : find pos r -> ref_len r = 3 -> find (pos + 1)%nat r2 -> 3 < ref_len r2 ->
    (forall r3, find (pos + 2)%nat r3 -> ref_len r3 <= ref_len r2) -> nth_error w pos = Some b ->
    three_choice w find pos [Literal b; Reference r2]
| three_third r r3 b b' : find pos r -> ref_len r = 3 -> find (pos + 2)%nat r3 -> 4 < ref_len r3 ->
    (forall r2, find (pos + 1)%nat r2 -> ref_len r2 < ref_len r3) ->
    nth_error w pos = Some b -> nth_error w (pos + 1) = Some b' ->
    three_choice w find pos [Literal b; Literal b'; Reference r3].

(** ** A whole encoder *)

(** Bytes a code stands for. *)
Definition code_len (c : Code) : nat := match c with Literal _ => 1%nat | Reference r => N.to_nat (ref_len r) end.
Definition codes_len (codes : list Code) : nat := list_sum (map code_len codes).

(** The matches longer than [limit] among [codes], which start at [pos]: their insides are not inserted into
    the dictionary. *)
Fixpoint long_runs (limit : option N) (pos : nat) (codes : list Code) : list (nat * N) :=
  match codes with
  | [] => []
  | c :: codes' =>
      match c, limit with
      | Reference r, Some l => if l <? ref_len r then [(pos, ref_len r)] else []
      | _, _ => []
      end ++ long_runs limit (pos + code_len c) codes'
  end.

(** [encoder w limit choice runs pos codes]: from [pos] on, choosing again and again, the codes for the rest
    of [w] are [codes]. *)
Inductive encoder (w : list N) (limit : option N) (choice : list (nat * N) -> nat -> list Code -> Prop)
  : list (nat * N) -> nat -> list Code -> Prop :=
| encoder_end runs pos : (List.length w <= pos)%nat -> encoder w limit choice runs pos []
| encoder_step runs pos codes more : (pos < List.length w)%nat -> choice runs pos codes ->
    encoder w limit choice (runs ++ long_runs limit pos codes) (pos + codes_len codes) more ->
    encoder w limit choice runs pos (codes ++ more).

(** The greedy encoder imitated at a gzip level: parameters from gzip's table. *)
Definition gzip_greedy (w : list N) (level : N) (pos : nat) (codes : list Code) : Prop :=
  exists good lazy_ nice_ chain_,
    1 <= level /\ nth_error gzip_levels (N.to_nat (level - 1)) = Some (good, lazy_, nice_, chain_)
    /\ encoder w (if level <? 4 then Some lazy_ else None)
         (fun runs => greedy_choice w (match_at w (mkSearch (N.to_nat (if level <? 4 then lazy_ else 65535)) (N.to_nat chain_) nice_ (4 <=? level)) runs))
         [] pos codes.

(** What the greedy encoder of a gzip level goes on with at a position of [w], by gzip's table, and the length from which
    the insides of its matches are hidden from later searches. *)
Definition level_choice (w : list N) (level : N) (runs : list (nat * N)) (pos : nat) (codes : list Code) : Prop :=
  exists good lazy_ nice_ chain_, nth_error gzip_levels (N.to_nat (level - 1)) = Some (good, lazy_, nice_, chain_)
    /\ greedy_choice w (match_at w (mkSearch (N.to_nat (if level <? 4 then lazy_ else 65535)) (N.to_nat chain_) nice_ (4 <=? level)) runs) pos codes.
Definition level_limit (level : N) : option N :=
  match nth_error gzip_levels (N.to_nat (level - 1)) with
  | Some (_, lazy_, _, _) => if level <? 4 then Some lazy_ else None
  | None => None
  end.

(** The same as [limit_count_of_distances] is documented: "only consider the nearest N inserted distances",
    with no other limit. *)
Definition documented_greedy (w : list N) (level : N) (pos : nat) (codes : list Code) : Prop :=
  exists good lazy_ nice_ chain_,
    1 <= level /\ nth_error gzip_levels (N.to_nat (level - 1)) = Some (good, lazy_, nice_, chain_)
    /\ encoder w (if level <? 4 then Some lazy_ else None)
         (fun runs => greedy_choice w (match_at w (mkSearch (List.length w) (N.to_nat chain_) nice_ (4 <=? level)) runs))
         [] pos codes.

(** gzip's lazy encoder, used at levels 4 to 9 (deflate.c): no search while holding a match of the lazy
    length or more, a quarter of the chain while holding one of the good length or more. *)
Definition gzip_lazy (w : list N) (level : N) (pos : nat) (codes : list Code) : Prop :=
  exists good lazy_ nice_ chain_,
    4 <= level /\ nth_error gzip_levels (N.to_nat (level - 1)) = Some (good, lazy_, nice_, chain_)
    /\ encoder w None
         (fun runs => lazy_choice w (match_at w (mkSearch (List.length w) (N.to_nat chain_) nice_ true) runs)
            (fun len p r => len < lazy_
               /\ match_at w (mkSearch (List.length w) (N.to_nat (if good <=? len then chain_ / 4 else chain_)) nice_ true) runs p r))
         [] pos codes.
