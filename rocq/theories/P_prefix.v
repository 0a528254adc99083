(** Properties C22 and C80: what a prefix of a file gives. *)
From Verif Require Import Base M_bit M_lib M_gzip M_parse M_rezippers M_dump Spec Clients Clients_file L_P_prefix.
Local Open Scope N_scope.

(** C22: a stream cut anywhere gives the reader's end-of-input error. *)
Theorem C22_truncation_error : forall used tail e blocks it cut e', bytes_ok (used ++ tail) ->
  parse_all (mkSource (used ++ tail) e) = (Ok blocks, it) ->
  br_into_inner (bi_inner it) = Ok (mkSource tail e) ->
  (cut < List.length used)%nat ->
  fst (parse_all (mkSource (firstn cut used) e')) = Err (EIo e').
Proof. exact C22_lemma_error. Qed.
Print Assumptions C22_truncation_error.

Example C22_error_case : exists blocks it,
  parse_all (mkSource ([0; 0; 0; 255; 255; 75; 132; 3; 0] ++ [1]) UnexpectedEof) = (Ok blocks, it)
  /\ br_into_inner (bi_inner it) = Ok (mkSource [1] UnexpectedEof)
  /\ fst (parse_all (mkSource [0; 0; 0; 255; 255; 75] OtherIo)) = Err (EIo OtherIo).
Proof. do 2 eexists. split; [|split]; vm_compute; reflexivity. Qed.

(** C80: up to the first end-of-input error, [next] returns for a prefix what it returns for the whole. *)
Theorem C80_blocks_of_a_prefix : forall bytes more e e' n i, bytes_ok bytes -> (i < n)%nat ->
  (forall j, (j <= i)%nat -> nth_error (fst (call_next n (parse_deflate (mkSource bytes e)))) j <> Some (Err (EIo e))) ->
  nth_error (fst (call_next n (parse_deflate (mkSource bytes e)))) i
  = nth_error (fst (call_next n (parse_deflate (mkSource (bytes ++ more) e')))) i.
Proof. exact C80_lemma_blocks. Qed.
Print Assumptions C80_blocks_of_a_prefix.

Example C80_blocks_case :
  fst (call_next 2 (parse_deflate (mkSource ([0; 0; 0; 255; 255] ++ [75]) UnexpectedEof))) = [Ok (Some (Uncompressed [])); Err (EIo UnexpectedEof)]
  /\ exists b, fst (call_next 2 (parse_deflate (mkSource (([0; 0; 0; 255; 255] ++ [75]) ++ [132; 3; 0]) UnexpectedEof))) = [Ok (Some (Uncompressed [])); Ok (Some b)].
Proof. split; [|eexists]; vm_compute; reflexivity. Qed.

(** C80, for the gzip header. *)
Theorem C80_header_of_a_prefix : forall bytes more e e' o tail, discard_header (mkSource bytes e) = (o, mkSource tail e) ->
  o = Err (EIo e) \/ discard_header (mkSource (bytes ++ more) e') = (o, mkSource (tail ++ more) e').
Proof. exact C80_lemma_header. Qed.
Print Assumptions C80_header_of_a_prefix.

Example C80_header_case : discard_header (mkSource [31; 139; 8; 0; 1; 2; 3; 4; 0; 3; 9] OtherIo) = (Ok [31; 139; 8; 0; 1; 2; 3; 4; 0; 3], mkSource [9] OtherIo)
  /\ fst (discard_header (mkSource [31; 139; 8; 0; 1; 2; 3; 4; 0] OtherIo)) = Err (EIo OtherIo).
Proof. split; vm_compute; reflexivity. Qed.

(** C80, for dump: it lists for a prefix the first lines of what it lists for the whole, and then reports the end of
    the input, unless nothing more was needed. *)
Theorem C80_dump_of_a_prefix : forall file more e e', bytes_ok file ->
  (exists l, fst (dump_run (mkSource (file ++ more) e')) = fst (dump_run (mkSource file e)) ++ l)
  /\ (snd (dump_run (mkSource file e)) = Err (EIo e) \/ dump_run (mkSource (file ++ more) e') = dump_run (mkSource file e)).
Proof. exact C80_lemma_dump. Qed.
Print Assumptions C80_dump_of_a_prefix.

(** C80, for cat: it prints for a prefix the first bytes of what it prints for the whole, wherever the output fails. *)
Theorem C80_cat_of_a_prefix : forall file more e e' room, bytes_ok file ->
  let '(o, out) := cat_run (mkSource file e) (sink_with room) in
  let '(o', out') := cat_run (mkSource (file ++ more) e') (sink_with room) in
  (exists l, written out' = written out ++ l) /\ (o = Err (EIo e) \/ o' = o /\ out' = out).
Proof. exact C80_lemma_cat. Qed.
Print Assumptions C80_cat_of_a_prefix.

(** A header, two blocks and trailing bytes, cut in the second block. *)
Definition split_file (n : nat) : list N :=
  firstn n ([31; 139; 8; 0; 0; 0; 0; 0; 0; 3] ++ [98; 100; 98; 102; 4; 35; 192; 216; 129; 24; 72; 113; 0; 0] ++ [1; 2; 3]).
Example C80_case : bytes_ok (split_file 20)
  /\ cat_run (mkSource (split_file 20) UnexpectedEof) new_sink = (Err (EIo UnexpectedEof), mkSink [1; 2; 3; 1; 2; 3; 1; 2; 3] None)
  /\ cat_run (mkSource (split_file 25) UnexpectedEof) new_sink = cat_run (mkSource (split_file 27) UnexpectedEof) new_sink
  /\ snd (dump_run (mkSource (split_file 20) UnexpectedEof)) = Err (EIo UnexpectedEof)
  /\ List.length (fst (dump_run (mkSource (split_file 20) UnexpectedEof))) = 7%nat.
Proof.
  split; [repeat constructor|]. split; [vm_compute; reflexivity|]. split; [vm_compute; reflexivity|].
  split; [vm_compute; reflexivity|]. vm_compute. reflexivity.
Qed.
