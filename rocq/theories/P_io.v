(** Properties C70 and C71: how readers and writers split the bytes makes no difference. *)
From Verif Require Import Base M_bit M_lib M_gzip M_parse M_serialise M_trace M_filter M_rezippers M_dump M_io Clients_io L_P_io.
Local Open Scope N_scope.

(** C70: every call of the block iterator gives the same for a reader that delivers its bytes in any pieces with any
    interruptions as for the same bytes at once, and leaves the same bytes unread. *)
Theorem C70_parse : forall events e n, rd_ok events ->
  let split := after (io_next rd_exact rd_left) n (io_parse_deflate (mkRd events e)) in
  let whole := after bi_next n (parse_deflate (mkSource (rd_bytes events) e)) in
  results (io_next rd_exact rd_left) n (io_parse_deflate (mkRd events e)) = results bi_next n (parse_deflate (mkSource (rd_bytes events) e))
  /\ rd_bytes (rd_events (io_inner (ii_inner split))) = rest (br_inner (bi_inner whole)).
Proof. exact C70_lemma_parse. Qed.
Print Assumptions C70_parse.

(** C70, for the gzip header. *)
Theorem C70_header : forall events e, rd_ok events ->
  let '(o, left_over) := io_discard_header rd_exact rd_left (mkRd events e) in
  let '(o', left_over') := discard_header (mkSource (rd_bytes events) e) in
  o = o' /\ rd_bytes (rd_events left_over) = rest left_over'.
Proof. exact C70_lemma_header. Qed.
Print Assumptions C70_header.

(** C70, for serialised hints. *)
Theorem C70_hints : forall events e, rd_ok events ->
  fst (io_st_read rd_exact rd_left (mkRd events e)) = fst (st_read (mkSource (rd_bytes events) e)).
Proof. exact C70_lemma_traces. Qed.
Print Assumptions C70_hints.

(** C70, for the dump command. *)
Theorem C70_dump : forall events e, rd_ok events -> io_dump_run rd_exact rd_left (mkRd events e) = dump_run (mkSource (rd_bytes events) e).
Proof. exact C70_lemma_dump. Qed.
Print Assumptions C70_dump.

(** C70, for parsing through a hashing reader: besides, the bytes hashed are exactly those taken from the reader. *)
Theorem C70_hashed : forall events e n, rd_ok events ->
  let f := after (io_next frd_exact frd_left) n (io_parse_deflate (filter_new (mkRd events e))) in
  let whole := after bi_next n (parse_deflate (mkSource (rd_bytes events) e)) in
  results (io_next frd_exact frd_left) n (io_parse_deflate (filter_new (mkRd events e))) = results bi_next n (parse_deflate (mkSource (rd_bytes events) e))
  /\ rd_bytes events = f_hash (io_inner (ii_inner f)) ++ rest (br_inner (bi_inner whole)).
Proof. exact C70_lemma_filter. Qed.
Print Assumptions C70_hashed.

(** A file delivered in pieces of one to three bytes with interruptions. *)
Definition pieces : list read_event :=
  [RInterrupted; RBytes [99]; RBytes [100; 98; 6]; RInterrupted; RInterrupted; RBytes [0; 7]].
Example C70_case : rd_ok pieces /\ rd_bytes pieces = [99; 100; 98; 6; 0; 7]
  /\ results (io_next rd_exact rd_left) 2 (io_parse_deflate (mkRd pieces UnexpectedEof)) = [Ok (Some (FixedHuffman [Literal 1; Literal 2; Literal 3])); Ok None]
  /\ io_st_read rd_exact rd_left (mkRd [RBytes [1]; RInterrupted; RBytes [0; 5]] UnexpectedEof) = (Ok [Actually (mkRef 1 5)], mkRd [] UnexpectedEof).
Proof. split; [intro H; cbn in H; intuition discriminate|]. repeat split; vm_compute; reflexivity. Qed.

(** C71: re-serialising blocks into a writer that accepts the bytes in any pieces, with any interruptions, and fails at
    any point, gives the same result and the same bytes as writing to it at once. *)
Theorem C71_compress : forall events fails blocks, wr_ok events ->
  let '(o, w) := iw_blocks wr_all blocks (iw_new (mkWr [] events fails)) in
  let '(o', w') := compress_blocks blocks (bw_new (mkSink [] (wr_room events fails))) in
  o = o' /\ wr_written (iw_inner w) = written (bw_inner w').
Proof. exact C71_lemma_compress. Qed.
Print Assumptions C71_compress.

(** C71, through a hashing writer: besides, the bytes hashed are exactly those written. *)
Theorem C71_hashed : forall events fails blocks, wr_ok events ->
  let '(o, w) := iw_blocks fwr_all blocks (iw_new (filter_new (mkWr [] events fails))) in
  let '(o', w') := compress_blocks blocks (bw_new (mkSink [] (wr_room events fails))) in
  o = o' /\ wr_written (f_inner (iw_inner w)) = written (bw_inner w') /\ f_hash (iw_inner w) = written (bw_inner w').
Proof. exact C71_lemma_filter. Qed.
Print Assumptions C71_hashed.

(** C70 and C71, for the cat command. *)
Theorem C71_cat : forall revents e wevents fails, rd_ok revents -> wr_ok wevents ->
  let '(o, w) := io_cat_run wr_all rd_exact rd_left (mkRd revents e) (mkWr [] wevents fails) in
  let '(o', w') := cat_run (mkSource (rd_bytes revents) e) (mkSink [] (wr_room wevents fails)) in
  o = o' /\ wr_written w = written w'.
Proof. exact C71_lemma_cat. Qed.
Print Assumptions C71_cat.

(** Writing three literals to a writer that takes one or two bytes at a time, and fails after four. *)
Definition gulps : list write_event := [WAccept 1; WInterrupted; WAccept 2; WAccept 1].
Example C71_case : wr_ok gulps /\ wr_room gulps true = Some 4%nat
  /\ (let '(o, w) := iw_blocks wr_all [FixedHuffman [Literal 1; Literal 2; Literal 3]] (iw_new (mkWr [] gulps false)) in o = Ok tt /\ wr_written (iw_inner w) = [99; 100; 98; 6; 0])
  /\ (let '(o, w) := iw_blocks wr_all [FixedHuffman [Literal 1; Literal 2; Literal 3]] (iw_new (mkWr [] gulps true)) in o = Err (EIo OtherIo) /\ wr_written (iw_inner w) = [99; 100; 98; 6]).
Proof. split; [intro H; cbn in H; intuition discriminate|]. split; [reflexivity|]. split; vm_compute; split; reflexivity. Qed.
