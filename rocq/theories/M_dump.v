(** Model of rezippers/src/dump.rs *)
From Verif Require Import Base M_bit M_lib M_code_tree M_huffman M_gzip M_parse.
Local Open Scope N_scope.
Local Open Scope model_scope.

(** A printed line, as the values that are formatted into it.  Simplified: the fixed text, the number formats
    and the quoting of [char::from(byte)] are left out, and printing itself does not fail. *)
Inductive dump_line :=
| DBlock (id : nat)               (* dump.rs:14 *)
| DStored (len : nat)             (* dump.rs:18 *)
| DFixed                          (* dump.rs:21 *)
| DDynamic (trees : bitvec)       (* dump.rs:25 *)
| DLit (chr : N)                  (* dump.rs:40 *)
| DBackref (dist run : N).        (* dump.rs:43-47 *)

(** dump.rs:34-51 *)
Definition dump_print (codes : list Code) : list dump_line :=
  map (fun code => match code with
                   | Literal chr => DLit chr
                   | Reference r => DBackref (r_dist r) (r_run r)
                   end) codes.

(** dump.rs:14-28: what is printed for one block *)
Definition dump_block (id : nat) (block : Block) : list dump_line :=
  DBlock id ::
  match block with
  | Uncompressed data => [DStored (List.length data)]
  | FixedHuffman codes => DFixed :: dump_print codes
  | DynamicHuffman trees codes => DDynamic trees :: dump_print codes
  end.

(** dump.rs:11-29; [fuel] bounds the number of blocks.  Returns what was printed and the result. *)
Fixpoint dump_loop (fuel : nat) (id : nat) (it : block_iter) : list dump_line * outcome unit :=
  match fuel with
  | O => ([], Diverge)
  | S fuel' =>
      match bi_next it with
      | (Ok None, _) => ([], Ok tt)
      | (Ok (Some block), it') =>
          let '(more, o) := dump_loop fuel' (S id) it' in (dump_block id block ++ more, o)
      | (Err e, _) => ([], Err e)
      | (Panic m, _) => ([], Panic m)
      | (Diverge, _) => ([], Diverge)
      end
  end.

(** dump.rs:9-32 *)
Definition dump_run (reader : source) : list dump_line * outcome unit :=
  match discard_header reader with
  | (Ok _, reader') => dump_loop (8 * List.length (rest reader') + 2) 0 (parse_deflate reader')
  | (Err e, _) => ([], Err e)
  | (Panic m, _) => ([], Panic m)
  | (Diverge, _) => ([], Diverge)
  end.
