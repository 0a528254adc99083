(** Whole-file clients, and what they should print.  Nothing here models code of the repository, except that
    [recreate_file] is the loop of the test lib.rs:219-257. *)
From Verif Require Import Base M_bit M_lib M_gzip M_parse M_serialise M_dump Spec.
Local Open Scope N_scope.
Local Open Scope model_scope.

(** Read the header, parse the blocks, write header and re-serialised blocks, copy what is left of the file. *)
Definition recreate_file (file : list N) : outcome (list N) :=
  match discard_header (mkSource file UnexpectedEof) with
  | (Ok header, raw) =>
      let '(o, it) := parse_all raw in
      blocks <-? o ;;
      stream <-? compress_all blocks ;;
      raw <-? br_into_inner (bi_inner it) ;;
      Ok (header ++ stream ++ rest raw)
  | (Err e, _) => Err e
  | (Panic m, _) => Panic m
  | (Diverge, _) => Diverge
  end.

(** The listing of a file: each block numbered from 0, its kind, and for compressed blocks one line for each
    code. *)
Definition code_line (c : Code) : dump_line :=
  match c with Literal b => DLit b | Reference r => DBackref (r_dist r) (ref_len r) end.
Fixpoint listing (id : nat) (blocks : list Block) : list dump_line :=
  match blocks with
  | [] => []
  | b :: blocks' =>
      [DBlock id]
      ++ match b with
         | Uncompressed data => [DStored (List.length data)]
         | FixedHuffman codes => DFixed :: map code_line codes
         | DynamicHuffman trees codes => DDynamic trees :: map code_line codes
         end
      ++ listing (S id) blocks'
  end.

(** A block without the contents of stored data. *)
Inductive outline := OStored (len : nat) | OFixed (codes : list Code) | ODynamic (trees : bitvec) (codes : list Code).
Definition outline_of (b : Block) : outline :=
  match b with
  | Uncompressed data => OStored (List.length data)
  | FixedHuffman codes => OFixed codes
  | DynamicHuffman trees codes => ODynamic trees codes
  end.
