(** Model of lib/src/obscure.rs, lib/src/back_map.rs and lib/src/all_refs.rs *)
From Verif Require Import Base M_bit M_lib.
Local Open Scope N_scope.
Local Open Scope model_scope.

(** lib.rs:58 *)
Definition Obscure : Type := (nat * N)%type.

(** obscure.rs:21-31 *)
Fixpoint obs_contains (haystack : list Obscure) (needle : nat) : bool :=
  match haystack with
  | [] => false
  | (start, len) :: haystack' =>
      if Nat.ltb start needle && Nat.ltb needle (start + N.to_nat len) then true
      else obs_contains haystack' needle
  end.

(** obscure.rs:7-19; iterators are lists *)
Definition obscure (from : list nat) (by_ : list Obscure) : list nat :=
  filter (fun item => negb (obs_contains by_ item)) from.

(** all_refs.rs:10-15 *)
Record Key := mkKey { k0 : N; k1 : N; k2 : N }.

(** all_refs.rs:145-156; [u16]: shifts discard the high bits *)
Definition sixteen_hash_16 (k : Key) : N :=
  let hash := 0 in
  let hash := N.lxor hash (k0 k) in
  let hash := (N.shiftl hash 5) mod 65536 in
  let hash := N.lxor hash (k1 k) in
  let hash := (N.shiftl hash 5) mod 65536 in
  let hash := N.lxor hash (k2 k) in
  N.land hash 32767.

(** back_map.rs:7 *)
Definition HASH_SIZE : N := 32 * 1024.

(** back_map.rs:10-16; the fixed-size array [hash_to_pos] is a function from index, with the
    bounds check at each access; [pos_to_pos] is a list. *)
Record BackMap := mkBackMap { hash_to_pos : N -> nat; pos_to_pos : list nat }.

Definition hash_get (f : N -> nat) (h : N) : outcome nat :=
  if h <? HASH_SIZE then Ok (f h) else Panic "index out of bounds".
Definition hash_set (f : N -> nat) (h : N) (p : nat) : N -> nat :=
  fun x => if x =? h then p else f x.

(** itertools [tuple_windows::<(u8, u8, u8)>()] *)
Fixpoint windows3 (l : list N) : list Key :=
  match l with
  | a :: l' =>
      match l' with
      | b :: c :: _ => mkKey a b c :: windows3 l'
      | _ => []
      end
  | [] => []
  end.

(** back_map.rs:25-37, from position [pos] *)
Fixpoint from_window_loop (pos : nat) (keys : list Key) (table : BackMap) : outcome BackMap :=
  match keys with
  | [] => Ok table
  | key :: keys' =>
      let hash := sixteen_hash_16 key in
      prev_pos <-? hash_get (hash_to_pos table) hash ;;
      ptp <-? set_idx (pos_to_pos table) pos prev_pos ;;
      from_window_loop (S pos) keys' (mkBackMap (hash_set (hash_to_pos table) hash pos) ptp)
  end.

(** back_map.rs:19-40 *)
Definition from_window (preroll data : list N) : outcome BackMap :=
  from_window_loop 0 (windows3 (preroll ++ data))
    (mkBackMap (fun _ => 0%nat) (repeat 0%nat (List.length preroll + List.length data))).

(** back_map.rs:57-73: the [Chain] iterator, unfolded from [current] into a list *)
Fixpoint chain_from (fuel : nat) (ptp : list nat) (current : nat) : outcome (list nat) :=
  match fuel with
  | O => Diverge
  | S fuel' =>
      next <-? get_idx ptp current ;;
      match next with
      | O => Ok [current]
      | _ => l <-? chain_from fuel' ptp next ;; Ok (current :: l)
      end
  end.

(** back_map.rs:42-49 *)
Definition bm_get (m : BackMap) (key : Key) : outcome (list nat) :=
  pos <-? hash_get (hash_to_pos m) (sixteen_hash_16 key) ;;
  chain_from (S (List.length (pos_to_pos m))) (pos_to_pos m) pos.

(** all_refs.rs:17-22 *)
Record AllRefs := mkAllRefs {
  ar_preroll : list N; ar_data : list N; ar_map : BackMap; ar_limit : N }.

(** all_refs.rs:25-32 *)
Definition with_sixteen (preroll data : list N) (limit : N) : outcome AllRefs :=
  m <-? from_window preroll data ;;
  Ok (mkAllRefs preroll data m limit).

(** all_refs.rs:34-36 *)
Definition ar_data_len (a : AllRefs) : nat := (List.length (ar_preroll a) + List.length (ar_data a))%nat.

(** all_refs.rs:87-93 *)
Definition ar_get (a : AllRefs) (pos : nat) : outcome N :=
  if Nat.ltb pos (List.length (ar_preroll a))
  then get_idx (ar_preroll a) pos
  else get_idx (ar_data a) (pos - List.length (ar_preroll a)).

(** all_refs.rs:38-48 *)
Definition ar_key (a : AllRefs) (data_pos : nat) : outcome (option Key) :=
  if Nat.ltb (data_pos + 2) (ar_data_len a)
  then b0 <-? ar_get a data_pos ;;
       b1 <-? ar_get a (data_pos + 1) ;;
       b2 <-? ar_get a (data_pos + 2) ;;
       Ok (Some (mkKey b0 b1 b2))
  else Ok None.

(** all_refs.rs:95-97; [usize] subtraction *)
Definition ar_get_at_dist (a : AllRefs) (data_pos : nat) (dist : N) : outcome N :=
  if Nat.ltb data_pos (N.to_nat dist) then Panic "attempt to subtract with overflow"
  else ar_get a (data_pos - N.to_nat dist).

(** A [for cur in lo..hi] loop that returns [cur] at the first mismatch, else [None]. *)
Fixpoint first_mismatch (curs : list nat) (differs : nat -> outcome bool) : outcome (option nat) :=
  match curs with
  | [] => Ok None
  | cur :: curs' =>
      d <-? differs cur ;;
      if (d : bool) then Ok (Some cur) else first_mismatch curs' differs
  end.

(** [lo..hi] *)
Definition range (lo hi : nat) : list nat := seq lo (hi - lo).

Fixpoint ar_get_all (a : AllRefs) (poss : list nat) : outcome (list N) :=
  match poss with
  | [] => Ok []
  | p :: poss' => x <-? ar_get a p ;; l <-? ar_get_all a poss' ;; Ok (x :: l)
  end.

Definition neqb_o (x y : outcome N) : outcome bool :=
  a <-? x ;; b <-? y ;; Ok (negb (a =? b)).

(** all_refs.rs:99-123; [dist] is positive (else [cur % dist] would panic) *)
Definition possible_run_length_at (a : AllRefs) (pos : nat) (dist : N) : outcome N :=
  (* data_len - pos underflows beyond the end *)
  if Nat.ltb (ar_data_len a) pos then Panic "attempt to subtract with overflow" else
  let upcoming_data_len := Nat.min 258 (ar_data_len a - pos) in
  upcoming_data <-? ar_get_all a (map (fun i => pos + i)%nat (seq 0 upcoming_data_len)) ;;
  let d := N.to_nat dist in
  m1 <-? first_mismatch (range 3 (Nat.min d upcoming_data_len))
           (fun cur => neqb_o (get_idx upcoming_data cur) (ar_get_at_dist a pos (dist - N.of_nat cur))) ;;
  match m1 with
  | Some cur => Ok (N.of_nat cur)
  | None =>
      m2 <-? first_mismatch (range d upcoming_data_len)
               (fun cur =>
                  if Nat.eqb d 0
                  then Panic "attempt to calculate the remainder with a divisor of zero"
                  else neqb_o (get_idx upcoming_data (cur mod d)) (get_idx upcoming_data cur)) ;;
      match m2 with
      | Some cur => Ok (N.of_nat cur)
      | None => Ok (N.of_nat upcoming_data_len)
      end
  end.

(** all_refs.rs:74-78 *)
Fixpoint filter_same_key (a : AllRefs) (key : Key) (offs : list nat) : outcome (list nat) :=
  match offs with
  | [] => Ok []
  | off :: offs' =>
      b0 <-? ar_get a off ;;
      keep <-? (if b0 =? k0 key
                then b1 <-? ar_get a (off + 1) ;;
                     if b1 =? k1 key
                     then b2 <-? ar_get a (off + 2) ;; Ok (b2 =? k2 key)
                     else Ok false
                else Ok false) ;;
      l <-? filter_same_key a key offs' ;;
      Ok (if (keep : bool) then off :: l else l)
  end.

(** all_refs.rs:79-83; [u16::try_from(pos - off).expect(..)] *)
Fixpoint map_refs (a : AllRefs) (pos : nat) (offs : list nat) : outcome (list Ref) :=
  match offs with
  | [] => Ok []
  | off :: offs' =>
      let dist := N.of_nat (pos - off) in
      if 65535 <? dist then Panic "logically sound"
      else
        run <-? possible_run_length_at a pos dist ;;
        r <-? Ref_new dist run ;;
        l <-? map_refs a pos offs' ;;
        Ok (r :: l)
  end.

(** all_refs.rs:51-85; the lazy iterator is modelled by the list of everything it can yield. *)
Definition ar_at (a : AllRefs) (pos : nat) (obscura : list Obscure) : outcome (option (list Ref)) :=
  k <-? ar_key a pos ;;
  match k with
  | None => Ok None
  | Some key =>
      if Nat.eqb 0 pos then Ok (Some [])
      else
        chain <-? bm_get (ar_map a) key ;;
        let offs := obscure (filter (fun off => Nat.ltb off pos) chain) obscura in
        let offs := firstn (N.to_nat (ar_limit a)) offs in
        let offs := filter (fun off => N.of_nat (pos - off) <=? 32768) offs in
        offs <-? filter_same_key a key offs ;;
        refs <-? map_refs a pos offs ;;
        Ok (Some refs)
  end.
