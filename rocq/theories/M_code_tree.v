(** Model of lib/src/code_tree.rs *)
From Verif Require Import Base M_bit.
Local Open Scope N_scope.
Local Open Scope model_scope.

(** code_tree.rs:94-97 *)
Inductive node := Leaf (sym : N) | Internal (lft rgt : node).

(** code_tree.rs:12-15 *)
Record code_tree := mkTree { ct_left : node; ct_right : node }.

(** code_tree.rs:36-42: [enumerate().filter(..).map(..)], starting at position [pos];
    [u16::try_from(pos).expect(..)] is a panic. *)
Fixpoint leaves_at (i : N) (pos : N) (lens : list N) : outcome (list node) :=
  match lens with
  | [] => Ok []
  | val :: lens' =>
      if i =? val
      then if pos <=? 65535
           then l <-? leaves_at i (pos + 1) lens' ;; Ok (Leaf pos :: l)
           else Panic "dict size < 300"
      else leaves_at i (pos + 1) lens'
  end.

(** code_tree.rs:46-51: itertools [tuples()] pairs up, dropping an odd one out. *)
Fixpoint pair_up (nodes : list node) : list node :=
  match nodes with
  | first :: second :: more => Internal first second :: pair_up more
  | _ => []
  end.

(** code_tree.rs:29-54: one iteration of the [for i in (0..16).rev()] loop. *)
Definition tree_level (lens : list N) (nodes : list node) (i : N) : outcome (list node) :=
  if Nat.even (List.length nodes)
  then leaves <-? (if 0 <? i then leaves_at i 0 lens else Ok []) ;;
       Ok (leaves ++ pair_up nodes)
  else Err (EMsg "not a tree").

Fixpoint tree_levels (lens : list N) (is : list N) (nodes : list node) : outcome (list node) :=
  match is with
  | [] => Ok nodes
  | i :: is' => nodes' <-? tree_level lens nodes i ;; tree_levels lens is' nodes'
  end.

(** code_tree.rs:28 *)
Definition fifteen_to_zero : list N := [15;14;13;12;11;10;9;8;7;6;5;4;3;2;1;0].

(** code_tree.rs:18-65 *)
Definition tree_new (lens : list N) : outcome code_tree :=
  if Nat.leb 2 (List.length lens) then
    if N.of_nat (List.length lens) <=? 4294967295 then
      nodes <-? tree_levels lens fifteen_to_zero [] ;;
      if Nat.eqb 1 (List.length nodes) then
        match nodes with
        | Internal lft rgt :: _ => Ok (mkTree lft rgt)
        | Leaf _ :: _ => Panic "root must be a node"
        | [] => Panic "unwrap on None"
        end
      else Err (EMsg "non-canonical code")
    else Err (EMsg "too many lengths")
  else Err (EMsg "too few lengths").

Section Decode.
  Context {S : Type} (rb : M S bool).

  (** code_tree.rs:81-92, restructured so the recursion is on a single node: an internal node
      reads one bit and descends, a leaf returns its symbol. *)
  Fixpoint decode_node (n : node) : M S N :=
    match n with
    | Leaf sym => ret sym
    | Internal lft rgt =>
        b <- rb ;;
        if (b : bool) then decode_node rgt else decode_node lft
    end.

  (** code_tree.rs:67-69 *)
  Definition decode_symbol (t : code_tree) : M S N :=
    decode_node (Internal (ct_left t) (ct_right t)).
End Decode.

(** code_tree.rs:136-140 *)
Definition plus_bit (into : bitvec) (val : bool) : outcome bitvec := bv_push into val.

(** code_tree.rs:123-134 *)
Fixpoint store_code (into : list (option bitvec)) (prefix : bitvec) (n : node)
  : outcome (list (option bitvec)) :=
  match n with
  | Leaf sym =>
      cur <-? get_idx into (N.to_nat sym) ;;
      match cur with
      | None => set_idx into (N.to_nat sym) (Some prefix)
      | Some _ => Panic "duplicate code in tree"
      end
  | Internal lft rgt =>
      p0 <-? plus_bit prefix false ;;
      into <-? store_code into p0 lft ;;
      p1 <-? plus_bit prefix true ;;
      store_code into p1 rgt
  end.

(** code_tree.rs:71-78 *)
Definition tree_invert (t : code_tree) : outcome (list (option bitvec)) :=
  let into := repeat None 288 in
  p0 <-? plus_bit bv_new false ;;
  into <-? store_code into p0 (ct_left t) ;;
  p1 <-? plus_bit bv_new true ;;
  store_code into p1 (ct_right t).
