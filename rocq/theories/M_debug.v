(** Model of the listings printed by the hand-written [Debug] implementations of [BitVec] (lib/src/bit.rs),
    [CodeTree] (lib/src/code_tree.rs) and [BackMap] (lib/src/back_map.rs), and of [BitVec::pretty_print].
    Simplified throughout: a printed line is the values formatted into it; the fixed text, the number formats
    (hexadecimal, decimal) and the escaping of characters are left out, as are errors of the formatter. *)
From Verif Require Import Base M_bit M_lib M_code_tree M_all_refs.
Local Open Scope N_scope.
Local Open Scope model_scope.

(** bit.rs:327-335: the length and the bits *)
Definition bv_debug (v : bitvec) : outcome (nat * list bool) :=
  bits <-? bv_to_list v ;; Ok (bv_len v, bits).

(** bit.rs:285-294: the inner loop; [room] is how many more characters fit the line *)
Fixpoint pp_line (room : nat) (it : stack_iter) : outcome (list bool * stack_iter) :=
  match room with
  | O => Ok ([], it)
  | S room' =>
      match si_next it with
      | (Ok (Some bit), it') => r <-? pp_line room' it' ;; Ok (bit :: fst r, snd r)
      | (Ok None, it') => Ok ([], it')
      | (Err e, _) => Err e
      | (Panic m, _) => Panic m
      | (Diverge, _) => Diverge
      end
  end.

(** bit.rs:283-301: the outer loop *)
Fixpoint pp_lines (fuel : nat) (it : stack_iter) : outcome (list (list bool)) :=
  match fuel with
  | O => Diverge
  | S fuel' =>
      r <-? pp_line 8 it ;;
      match fst r with
      | [] => Ok []
      | line => more <-? pp_lines fuel' (snd r) ;; Ok (line :: more)
      end
  end.

(** bit.rs:281-302 *)
Definition bv_pretty_print (v : bitvec) : outcome (list (list bool)) := pp_lines (S (bv_len v)) (bv_iter v).

(** code_tree.rs:110-114: a byte, the end marker, or the symbol less 256 *)
Inductive symbol_text := TByte (b : N) | TEnd | TOther (n : N).
Definition symbol_line (sym : N) : symbol_text :=
  if sym <=? 255 then TByte sym else if sym =? 256 then TEnd else TOther (sym - 256).

(** code_tree.rs:106-121; the prefix string is the list of its characters *)
Fixpoint node_debug (prefix : list bool) (n : node) : list (list bool * symbol_text) :=
  match n with
  | Leaf sym => [(prefix, symbol_line sym)]
  | Internal lft rgt => node_debug (prefix ++ [false]) lft ++ node_debug (prefix ++ [true]) rgt
  end.

(** code_tree.rs:99-104 *)
Definition tree_debug (t : code_tree) : list (list bool * symbol_text) :=
  node_debug [false] (ct_left t) ++ node_debug [true] (ct_right t).

(** back_map.rs:86-93: the loop pushing onto [vals] *)
Fixpoint bm_chain (fuel : nat) (m : BackMap) (current : nat) (vals : list nat) : outcome (list nat) :=
  match fuel with
  | O => Diverge
  | S fuel' =>
      current <-? get_idx (pos_to_pos m) current ;;
      if Nat.eqb 0 current then Ok vals
      else bm_chain fuel' m current (vals ++ [current])
  end.

(** back_map.rs:77-97: one line for each hash in [hashes] with a position other than 0 *)
Fixpoint bm_lines (m : BackMap) (hashes : list N) : outcome (list (N * list nat)) :=
  match hashes with
  | [] => Ok []
  | hash :: hashes' =>
      pos <-? hash_get (hash_to_pos m) hash ;;
      if Nat.eqb 0 pos then bm_lines m hashes'
      else vals <-? bm_chain (S (List.length (pos_to_pos m))) m pos [pos] ;;
           more <-? bm_lines m hashes' ;;
           Ok ((hash, rev vals) :: more)
  end.

(** back_map.rs:75-100; [enumerate] over the table of HASH_SIZE entries *)
Definition bm_debug (m : BackMap) : outcome (list (N * list nat)) :=
  bm_lines m (map N.of_nat (seq 0 (N.to_nat HASH_SIZE))).
