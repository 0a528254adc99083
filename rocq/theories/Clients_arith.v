(** Repeated calls in a given build (C85).  Nothing here models code of the repository. *)
From Verif Require Import Base M_bit M_lib M_parse M_circles M_serialise M_arith Spec Clients Clients_write.
Local Open Scope N_scope.
Local Open Scope model_scope.

(** [n] calls of [next], whatever they return. *)
Fixpoint mc_call_next (bd : build) (n : nat) (it : block_iter) : list (outcome (option Block)) * block_iter :=
  match n with
  | O => ([], it)
  | S n' =>
      let '(o, it1) := mc_next bd it in
      let '(os, it2) := mc_call_next bd n' it1 in
      (o :: os, it2)
  end.

(** Decompressing blocks one after the other into one window. *)
Fixpoint mc_decompress_blocks (bd : build) (blocks : list Block) : M (circ * sink) unit :=
  match blocks with
  | [] => ret tt
  | b :: blocks' => mc_decompressed_block bd b ;;; mc_decompress_blocks bd blocks'
  end.

(** Writing out a stream in a given build: each block after its final flag, then the padding. *)
Fixpoint mc_compress_blocks (bd : build) (fuel : nat) (blocks : list Block) : M bit_writer unit :=
  match blocks with
  | [] => mc_bw_align bd
  | block :: blocks' =>
      mc_write_bit bd (match blocks' with [] => true | _ => false end) ;;;
      mc_compressed_block bd fuel block ;;;
      mc_compress_blocks bd fuel blocks'
  end.
Definition mc_compress_all (bd : build) (fuel : nat) (blocks : list Block) : outcome (list N) :=
  let '(o, w) := mc_compress_blocks bd fuel blocks (bw_new new_sink) in
  obind o (fun _ => obind (bw_into_inner w) (fun s => Ok (written s))).

(** Values the types can hold, on a machine with 64 bits. *)
Definition block_fits (b : Block) : Prop :=
  block_value b /\ match b with DynamicHuffman trees _ => N.of_nat (bv_len trees) < 2 ^ 64 | _ => True end.

(** References as DEFLATE has them.  The fields of [Ref] are public, so a caller can make others. *)
Definition in_range (c : Code) : Prop := match c with Literal _ => True | Reference r => 1 <= r_dist r <= 32768 end.

(** Hints the type can hold. *)
Definition hint_value (h : Trace) : Prop :=
  match h with
  | Actually r => r_dist r < 65536 /\ r_run_minus_3 r < 256
  | _ => True
  end.
(** The table of positions for the data, a [usize] of eight bytes for each byte, is no larger than the largest allocation. *)
Definition data_fits (preroll data : list N) : Prop := N.of_nat (List.length preroll + List.length data) < 2 ^ 60.
