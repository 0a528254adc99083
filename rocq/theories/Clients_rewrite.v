(** What C92 talks about.  Nothing here models code of the repository. *)
From Verif Require Import Base M_bit M_lib Spec.
Local Open Scope N_scope.

(** A block with a match of length 258 whose own table has no code for symbol 285 (the match was written as 284 with all
    extra bits set). *)
Definition lacks_longest (b : Block) : Prop :=
  exists ll dl hdr codes r, b = DynamicHuffman (bitvec_of hdr) codes /\ dyn_header ll dl hdr
    /\ In (Reference r) codes /\ ref_len r = 258 /\ rfc_code ll 285 = None.

(** Every stored block has a length that reads the same in either byte order. *)
Definition lengths_symmetric (blocks : list Block) : Prop := forall data, In (Uncompressed data) blocks -> symmetric_length data.
