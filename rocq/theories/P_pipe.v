(** Property C110: pipes of commands, and C108 for processes (rezippers/src). *)
From Verif Require Import Base M_bit M_lib M_circles M_gzip M_parse M_serialise M_rezippers M_dump M_text M_io M_main Spec Clients Clients_file Clients_zero Clients_io Clients_main
  L_P_rsync L_P_pipe P_rsync.
Local Open Scope N_scope.

(** C110: zero exits with status 0, and on what its device received, wherever that is read from and in whatever pieces, cat exits with status 0 and
    has printed the content, zero has changed nothing, and dump has printed the lengths of the chunks. *)
Theorem C110_pipes : forall inflate split header content file chunks f w, (forall l, List.concat (split l) = l) -> decompressor_right inflate -> bytes_ok file ->
  gzip_of header content file -> content <> [] -> chunks_of content chunks -> (forall c, In c chunks -> N.of_nat (List.length c) <> 65536) ->
  ready w (Zero f) file ->
  exists zeroed, main_run inflate split (Zero f) w = (Some 0, zeroed)
    /\ (forall g w', ready w' (Cat g) zeroed -> main_run inflate split (Cat g) w' = (Some 0, content))
    /\ (forall g w', ready w' (Zero g) zeroed -> main_run inflate split (Zero g) w' = (Some 0, zeroed))
    /\ (forall g w', ready w' (Dump g) zeroed -> exists text, main_run inflate split (Dump g) w' = (Some 0, text)
          /\ dump_text (flat_map (fun p => [DBlock (fst p); DStored (snd p)]) (combine (seq 0 (List.length chunks)) (map (@List.length N) chunks))) = Ok text).
Proof. exact C110_lemma. Qed.
Print Assumptions C110_pipes.

(** C108 for processes: from what dump prints and its exit status one can tell the exit status of cat and how much it prints. *)
Theorem C108_processes : forall inflate split file file' f f' g g' w w' v v', (forall l, List.concat (split l) = l) -> bytes_ok file -> bytes_ok file' ->
  ready w (Dump f) file -> ready w' (Dump f') file' -> ready v (Cat g) file -> ready v' (Cat g') file' ->
  main_run inflate split (Dump f) w = main_run inflate split (Dump f') w' ->
  exists status out out', main_run inflate split (Cat g) v = (status, out) /\ main_run inflate split (Cat g') v' = (status, out')
    /\ List.length out = List.length out'.
Proof. exact C108_lemma_processes. Qed.
Print Assumptions C108_processes.

(** The file of C78 in two pieces, read by zero from a named file; its output in two pieces, read by the others from standard input; devices that take a
    few bytes at a time. *)
Definition pipe_in : world :=
  mkWorld (fun path => if String.eqb path "a.gz" then Ok (mkRd [RBytes (firstn 3 zero_one); RInterrupted; RBytes (skipn 3 zero_one)] UnexpectedEof) else Err (EIo OtherIo))
          (mkRd [] UnexpectedEof) (mkWr [] [WAccept 2; WInterrupted] false).
Definition pipe_out : list N := zero_header ++ stored_blocks [zero_content] ++ le32_bytes (crc32 zero_content) ++ le32_bytes (N.of_nat (List.length zero_content)).
Definition pipe_next : world :=
  mkWorld (fun path => Err (EIo OtherIo)) (mkRd [RInterrupted; RBytes (firstn 20 pipe_out); RBytes (skipn 20 pipe_out)] UnexpectedEof) (mkWr [] [WAccept 7] false).
Example C110_case :
  ready pipe_in (Zero (Some "a.gz"%string)) zero_one /\ main_run own_inflate (fun l => [l]) (Zero (Some "a.gz"%string)) pipe_in = (Some 0, pipe_out)
  /\ ready pipe_next (Cat None) pipe_out /\ main_run own_inflate (fun l => [l]) (Cat None) pipe_next = (Some 0, zero_content)
  /\ main_run own_inflate (fun l => [l]) (Zero None) pipe_next = (Some 0, pipe_out)
  /\ ready pipe_next (Dump None) pipe_out /\ bytes_ok pipe_out
  /\ bytes_ok zero_one /\ gzip_of zero_header zero_content zero_one /\ chunks_of zero_content [zero_content].
Proof.
  split; [exists [RBytes (firstn 3 zero_one); RInterrupted; RBytes (skipn 3 zero_one)], UnexpectedEof; repeat split; intro H; cbn in H; intuition discriminate|].
  split; [vm_compute; reflexivity|].
  assert (NEXT : ready pipe_next (Cat None) pipe_out).
  { exists [RInterrupted; RBytes (firstn 20 pipe_out); RBytes (skipn 20 pipe_out)], UnexpectedEof. split; [reflexivity|].
    split; [intros [H|[H|[H|[]]]]; vm_compute in H; discriminate|]. split; [vm_compute; reflexivity|]. split; [reflexivity|]. split; [intros [H|[]]; discriminate|reflexivity]. }
  split; [exact NEXT|]. split; [vm_compute; reflexivity|]. split; [vm_compute; reflexivity|]. split; [exact NEXT|]. split; [vm_compute; repeat constructor|]. split; [repeat constructor|]. split; [apply C78_case|vm_compute; reflexivity].
Qed.
