(** Properties C75 and C76: the commands as processes, and the buffer of standard output. *)
From Verif Require Import Base M_gzip M_rezippers M_dump M_text M_io M_main Clients_io Clients_main L_P_main.
Local Open Scope N_scope.

(** C75: whether its input is a named file or standard input, however that delivers its bytes, however [println!] splits
    its text and in whatever pieces the device takes it, a command whose output does not fail exits with the status of
    its result and has delivered exactly its output. *)
Theorem C75_commands : forall inflate split c w events e o text, (forall l, List.concat (split l) = l) ->
  input_of w c = Ok (mkRd events e) -> rd_ok events ->
  wr_written (w_device w) = [] -> wr_ok (wr_events (w_device w)) -> wr_fails (w_device w) = false ->
  does inflate c (mkSource (rd_bytes events) e) o text ->
  main_run inflate split c w = (status_of o, text).
Proof. exact C75_lemma. Qed.
Print Assumptions C75_commands.

(** Every input has such a result and output. *)
Theorem C75_always : forall inflate c file e, bytes_ok file -> exists o text, does inflate c (mkSource file e) o text.
Proof. exact C75_lemma_always. Qed.
Print Assumptions C75_always.

(** C75: a file that cannot be opened is a failure without output. *)
Theorem C75_missing : forall inflate split c w er, input_of w c = Err er -> wr_written (w_device w) = [] ->
  main_run inflate split c w = (Some 1, []).
Proof. exact C75_lemma_missing. Qed.
Print Assumptions C75_missing.

(** "abc", an escaped file name and a device that takes two bytes at a time. *)
Definition small_file : list N := [31; 139; 8; 0; 0; 0; 0; 0; 4; 3] ++ [99; 100; 98; 6; 0].
Definition small_world (dev : writer) : world :=
  mkWorld (fun path => if String.eqb path "a.gz" then Ok (mkRd [RBytes (firstn 3 small_file); RInterrupted; RBytes (skipn 3 small_file)] UnexpectedEof) else Err (EIo OtherIo))
          (mkRd [RBytes small_file] UnexpectedEof) dev.
Example C75_case :
  main_run (fun _ => []) (fun l => [l]) (Cat (Some "a.gz"%string)) (small_world (mkWr [] [WAccept 2; WInterrupted] false)) = (Some 0, [1; 2; 3])
  /\ main_run (fun _ => []) (fun l => [l]) (Cat None) (small_world (mkWr [] [] false)) = (Some 0, [1; 2; 3])
  /\ main_run (fun _ => []) (fun l => [l]) (Cat (Some "b.gz"%string)) (small_world (mkWr [] [] false)) = (Some 1, [])
  /\ main_run (fun _ => []) (fun l => [l]) (Zero None) (small_world (mkWr [] [] false)) = (Some 101, [])
  /\ (exists text, main_run (fun _ => []) (fun l => [firstn 3 l; skipn 3 l]) (Dump None) (small_world (mkWr [] [] false)) = (Some 0, text) /\ List.length text = 102%nat)
  /\ rd_ok [RBytes (firstn 3 small_file); RInterrupted; RBytes (skipn 3 small_file)].
Proof.
  split; [vm_compute; reflexivity|]. split; [vm_compute; reflexivity|]. split; [vm_compute; reflexivity|]. split; [vm_compute; reflexivity|].
  split; [eexists; split; vm_compute; reflexivity|]. intro H. cbn in H. intuition discriminate.
Qed.

(** C76 is false: cat can report success although the device refused its output, because the last bytes are only
    written at exit, where errors are dropped. *)
Theorem C76_success_refuted : exists c w events e o text lost, input_of w c = Ok (mkRd events e) /\ rd_ok events
  /\ wr_written (w_device w) = [] /\ wr_ok (wr_events (w_device w)) /\ lost <> []
  /\ (forall inflate, does inflate c (mkSource (rd_bytes events) e) o text)
  /\ forall inflate split, exists delivered, main_run inflate split c w = (Some 0, delivered) /\ text = delivered ++ lost.
Proof. exact C76_lemma_refuted. Qed.
Print Assumptions C76_success_refuted.

(** C76, what does hold for a device that takes [n] bytes: it always gets exactly the first [n] bytes of the output; and
    if the status is that of a command whose output did not fail, then what was lost is at most 1024 bytes of an
    unfinished last line. *)
Theorem C76_success_partial : forall inflate split c w events e o text n, (forall l, List.concat (split l) = l) ->
  input_of w c = Ok (mkRd events e) -> rd_ok events ->
  wr_written (w_device w) = [] -> wr_ok (wr_events (w_device w)) -> wr_room (wr_events (w_device w)) (wr_fails (w_device w)) = Some n ->
  does inflate c (mkSource (rd_bytes events) e) o text ->
  exists status, main_run inflate split c w = (status, firstn n text)
    /\ ((status = status_of o /\ (skipn n text = [] \/ ((List.length (skipn n text) <= N.to_nat 1024)%nat /\ ~ In 10 (skipn n text))))
        \/ (skipn n text <> [] /\ status = output_failure c)).
Proof. exact C76_lemma. Qed.
Print Assumptions C76_success_partial.

(** C76 for dump: since its output ends with a newline, it succeeds only if everything was delivered. *)
Theorem C76_dump : forall inflate split file w events e o text n, (forall l, List.concat (split l) = l) ->
  input_of w (Dump file) = Ok (mkRd events e) -> rd_ok events ->
  wr_written (w_device w) = [] -> wr_ok (wr_events (w_device w)) -> wr_room (wr_events (w_device w)) (wr_fails (w_device w)) = Some n ->
  does inflate (Dump file) (mkSource (rd_bytes events) e) o text ->
  main_run inflate split (Dump file) w = (if Nat.leb (List.length text) n then status_of o else Some 101, firstn n text).
Proof. exact C76_lemma_dump. Qed.
Print Assumptions C76_dump.

Example C76_case :
  wr_room [WAccept 1; WInterrupted; WAccept 1] true = Some 2%nat /\ wr_ok [WAccept 1; WInterrupted; WAccept 1]
  /\ main_run (fun _ => []) (fun l => [l]) (Cat None) (small_world (mkWr [] [WAccept 1; WInterrupted; WAccept 1] true)) = (Some 0, [1; 2])
  /\ main_run (fun _ => map inl [10; 20]) (fun l => [l]) (Zero None) (small_world (mkWr [] [WAccept 20] true))
     = (Some 0, [31; 139; 8; 0; 0; 0; 0; 0; 4; 3; 1; 2; 0; 253; 255; 10; 20] ++ [8; 46; 236])
  /\ main_run (fun _ => map inl [10; 20]) (fun l => [l]) (Zero None) (small_world (mkWr [] [WAccept 12] true))
     = (Some 1, [31; 139; 8; 0; 0; 0; 0; 0; 4; 3; 1; 2])
  /\ fst (main_run (fun _ => []) (fun l => [l]) (Dump None) (small_world (mkWr [] [WAccept 20] true))) = Some 101.
Proof.
  split; [reflexivity|]. split; [intro H; cbn in H; intuition discriminate|]. split; [vm_compute; reflexivity|]. split; [vm_compute; reflexivity|]. split; vm_compute; reflexivity.
Qed.
