(** Model of lib/examples/collisions.rs and lib/examples/hard.rs *)
From Verif Require Import Base M_all_refs M_text.
From Coq Require Import Permutation.
Local Open Scope N_scope.
Local Open Scope model_scope.

(** ** collisions.rs *)

Definition triple : Type := N * N * N.

(** [b' '..=b'~'] *)
Definition typeable : list N := map N.of_nat (seq 32 95).

(** collisions.rs:12-14: the loops' order *)
Definition typeable_triples : list triple :=
  flat_map (fun a => flat_map (fun b => map (fun c => (a, b, c)) typeable) typeable) typeable.

Definition triple_eqb (s t : triple) : bool :=
  (fst (fst s) =? fst (fst t)) && (snd (fst s) =? snd (fst t)) && (snd s =? snd t).

(** collisions.rs:15 *)
Definition triple_key (t : triple) : Key := mkKey (fst (fst t)) (snd (fst t)) (snd t).

(** [HashMap<u16, HashSet<(u8, u8, u8)>>], entries and elements in no particular order *)
Definition buckets : Type := list (N * list triple).

(** collisions.rs:16-18 *)
Fixpoint bucket_insert (hash : N) (t : triple) (map : buckets) : buckets :=
  match map with
  | [] => [(hash, [t])]
  | (h, set) :: map' =>
      if h =? hash then (h, if existsb (triple_eqb t) set then set else t :: set) :: map'
      else (h, set) :: bucket_insert hash t map'
  end.

(** collisions.rs:10-21 *)
Definition fill_buckets (ts : list triple) : buckets :=
  fold_left (fun map t => bucket_insert (sixteen_hash_16 (triple_key t)) t map) ts [].

(** What iterating over the map and its sets may yield: any order of the entries and of the elements. *)
Definition iterates (map order : buckets) : Prop :=
  exists entries, Permutation map entries
    /\ Forall2 (fun e o => fst e = fst o /\ Permutation (snd e) (snd o)) entries order.

(** collisions.rs:29: characters below 128 are single bytes *)
Definition triple_text (t : triple) : list N := [fst (fst t); snd (fst t); snd t].

(** [Vec<String>::sort], on bytes *)
Fixpoint str_ltb (a b : list N) : bool :=
  match a, b with
  | _, [] => false
  | [], _ :: _ => true
  | x :: a', y :: b' => (x <? y) || ((x =? y) && str_ltb a' b')
  end.
Fixpoint str_insert (s : list N) (l : list (list N)) : list (list N) :=
  match l with
  | [] => [s]
  | t :: l' => if str_ltb t s then t :: str_insert s l' else s :: l
  end.
Definition str_sort (l : list (list N)) : list (list N) := fold_right str_insert [] l.

Definition text_eqb (a b : list N) : bool := if list_eq_dec N.eq_dec a b then true else false.

(** collisions.rs:24-35, one entry: the line printed, if any, as the count and the strings listed *)
Definition bucket_line (set : list triple) : option (nat * list (list N)) :=
  if Nat.eqb 1 (List.length set) then None
  else
    let parts := map triple_text set in
    if Nat.eqb 2 (List.length parts) && text_eqb (skipn 1 (nth 0 parts [])) (skipn 1 (nth 1 parts [])) then None
    else Some (List.length parts, str_sort parts).

(** collisions.rs:23-36, for one order of iteration *)
Definition collisions_lines (order : buckets) : list (nat * list (list N)) :=
  flat_map (fun e => match bucket_line (snd e) with Some l => [l] | None => [] end) order.

(** collisions.rs:35 *)
Fixpoint join (sep : list N) (l : list (list N)) : list N :=
  match l with
  | [] => []
  | [s] => s
  | s :: l' => s ++ sep ++ join sep l'
  end.
Definition collision_text (line : nat * list (list N)) : list N :=
  decimal (N.of_nat (fst line)) ++ text " " ++ join (text ", ") (snd line) ++ [10].

(** ** hard.rs *)

(** hard.rs:11-14: [is_ascii_graphic] is '!' to '~' *)
Definition graphic_chars : list N := filter (fun c => (33 <=? c) && (c <=? 126)) (map N.of_nat (seq 32 96)).

(** hard.rs:25-27: [choose] picks an index; [draw] is the generator, [rng] its state *)
Fixpoint hard_fill {G} (draw : G -> nat * G) (n : nat) (rng : G) : outcome (list N) * G :=
  match n with
  | O => (Ok [], rng)
  | S n' =>
      let '(i, rng') := draw rng in
      match nth_error graphic_chars (i mod List.length graphic_chars) with
      | Some c => let '(o, rng'') := hard_fill draw n' rng' in (l <-? o ;; Ok (c :: l), rng'')
      | None => (Panic "non-empty", rng')
      end
  end.

(** hard.rs:21-30: [rounds] iterations of the endless loop; a failing write panics *)
Fixpoint hard_loop {G} (draw : G -> nat * G) (rounds : nat) (rng : G) : M sink unit :=
  match rounds with
  | O => ret tt
  | S rounds' =>
      fun out =>
        let '(o, rng') := hard_fill draw 7 rng in
        match o with
        | Ok l =>
            match write_all (l ++ [10]) out with
            | (Ok _, out') => hard_loop draw rounds' rng' out'
            | (_, out') => (Panic "called `Result::unwrap()` on an `Err` value", out')
            end
        | Err e => (Err e, out)
        | Panic m => (Panic m, out)
        | Diverge => (Diverge, out)
        end
  end.
