(** How many bits the parts of a stream take at most (C84).  Nothing here models code of the repository. *)
From Verif Require Import Base M_bit M_lib M_code_tree Spec Clients.
Local Open Scope N_scope.

(** How many bits lead to the deepest leaf: how often the functions recursing on a tree call themselves. *)
Fixpoint node_height (n : node) : nat :=
  match n with Leaf _ => O | Internal a b => S (Nat.max (node_height a) (node_height b)) end.
Definition tree_height (t : code_tree) : nat := node_height (Internal (ct_left t) (ct_right t)).

(** Bits of a block, without its final flag.  Stored: the type, the padding, two lengths, the bytes.  Fixed: a literal has
    at most 9 bits, a reference at most 8 + 5 + 5 + 13.  Dynamic: the header, codes of at most 15 + 5 + 15 + 13 bits, the
    end of block symbol. *)
Definition most_bits (b : Block) : N :=
  match b with
  | Uncompressed data => 2 + 7 + 32 + 8 * N.of_nat (List.length data)
  | FixedHuffman codes => 2 + 31 * N.of_nat (List.length codes) + 7
  | DynamicHuffman trees codes => 2 + N.of_nat (bv_len trees) + 48 * N.of_nat (List.length codes) + 15
  end.

(** Bits of a stream: each block has a final flag, the last one may be padded. *)
Definition most_stream_bits (blocks : list Block) : N :=
  fold_right (fun b acc => 1 + most_bits b + acc) 7 blocks.
