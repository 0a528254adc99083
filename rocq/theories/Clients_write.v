(** What C74 talks about: what should become of any block handed to the writer.  Nothing here models code of the repository. *)
From Verif Require Import Base M_bit M_lib Spec Clients Clients_wrong.
Local Open Scope N_scope.

(** Written; refused with an error; a panic. *)
Inductive verdict := Written | Refused | Crashes.

Definition meets {A} (v : verdict) (o : outcome A) : Prop :=
  match v, o with
  | Written, Ok _ | Refused, Err _ | Crashes, Panic _ => True
  | _, _ => False
  end.

(** The values the types can hold. *)
Definition code_value (c : Code) : Prop :=
  match c with
  | Literal b => b < 256
  | Reference r => r_dist r < 65536 /\ r_run_minus_3 r < 256
  end.
Definition block_value (b : Block) : Prop :=
  match b with
  | Uncompressed data => bytes_ok data
  | FixedHuffman cs => Forall code_value cs
  | DynamicHuffman trees cs => (exists bits, trees = bitvec_of bits) /\ Forall code_value cs
  end.

(** The symbol for the length of [r] has a code, under the lengths [ll]; 258 has only symbol 285. *)
Definition length_has_code (ll : list N) (r : Ref) : Prop :=
  exists s n v, table_row length_table (ref_len r) s n v /\ (ref_len r = 258 -> s = 285) /\ rfc_code ll s <> None.
Definition distance_has_code (dl : list N) (r : Ref) : Prop :=
  exists s n v, table_row distance_table (r_dist r) s n v /\ rfc_code dl s <> None.

(** One code, under code lengths [ll] and [dl]; [dl = [0]] announces that there are no distances. *)
Inductive code_verdict (ll dl : list N) : Code -> verdict -> Prop :=
| CV_literal b : rfc_code ll b <> None -> code_verdict ll dl (Literal b) Written
| CV_no_literal b : rfc_code ll b = None -> code_verdict ll dl (Literal b) Refused
| CV_reference r :
    length_has_code ll r -> distance_has_code dl r -> code_verdict ll dl (Reference r) Written
| CV_no_length r : ~ length_has_code ll r -> code_verdict ll dl (Reference r) Crashes
| CV_bad_distance r :
    length_has_code ll r -> ~ 1 <= r_dist r <= 32768 -> code_verdict ll dl (Reference r) Crashes
| CV_no_distances r :
    length_has_code ll r -> 1 <= r_dist r <= 32768 -> dl = [0] -> code_verdict ll dl (Reference r) Refused
| CV_no_distance r :
    length_has_code ll r -> 1 <= r_dist r <= 32768 -> dl <> [0] -> ~ distance_has_code dl r ->
    code_verdict ll dl (Reference r) Crashes.

(** The first thing that is not written decides. *)
Inductive first_fault {A} (one : A -> verdict -> Prop) : list A -> verdict -> Prop :=
| FF_none : first_fault one [] Written
| FF_next x l v : one x Written -> first_fault one l v -> first_fault one (x :: l) v
| FF_here x l v : one x v -> v <> Written -> first_fault one (x :: l) v.

(** The codes of a block, then the end of block symbol. *)
Inductive body_verdict (ll dl : list N) (cs : list Code) : verdict -> Prop :=
| BV_end : first_fault (code_verdict ll dl) cs Written -> rfc_code ll 256 <> None -> body_verdict ll dl cs Written
| BV_no_end : first_fault (code_verdict ll dl) cs Written -> rfc_code ll 256 = None -> body_verdict ll dl cs Crashes
| BV_code v : first_fault (code_verdict ll dl) cs v -> v <> Written -> body_verdict ll dl cs v.

Inductive block_verdict : Block -> verdict -> Prop :=
| KV_stored data : N.of_nat (List.length data) <= 65535 -> block_verdict (Uncompressed data) Written
| KV_too_long data : 65535 < N.of_nat (List.length data) -> block_verdict (Uncompressed data) Refused
| KV_fixed cs v : body_verdict fixed_ll fixed_dl cs v -> block_verdict (FixedHuffman cs) v
| KV_dynamic ll dl hdr extra cs v :  (* anything after the header is written too *)
    dyn_header ll dl hdr -> body_verdict ll dl cs v -> block_verdict (DynamicHuffman (bitvec_of (hdr ++ extra)) cs) v
| KV_wrong_header msg hdr extra cs :
    wrong_header msg hdr -> block_verdict (DynamicHuffman (bitvec_of (hdr ++ extra)) cs) Refused
| KV_cut_short bits cs :  (* the bits end before they are a header or wrong *)
    (forall ll dl hdr extra, bits = hdr ++ extra -> ~ dyn_header ll dl hdr) ->
    (forall msg hdr extra, bits = hdr ++ extra -> ~ wrong_header msg hdr) ->
    block_verdict (DynamicHuffman (bitvec_of bits) cs) Crashes.
