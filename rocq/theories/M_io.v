(** The parts of std::io between the code and a real reader or writer, and the readers and writers of the code again on
    top of them: short reads, short writes and [ErrorKind::Interrupted] are visible here.  Everywhere else a reader is a
    [source] and a writer a [sink]; C70 and C71 say that this makes no difference. *)
From Verif Require Import Base M_bit M_lib M_code_tree M_huffman M_circles M_gzip M_parse M_serialise M_trace M_filter M_rezippers M_dump.
Local Open Scope N_scope.
Local Open Scope model_scope.

(** ** Reading *)

(** What successive calls of [Read::read] find: some bytes, as many as fit the buffer, or an interruption. *)
Inductive read_event := RBytes (bs : list N) | RInterrupted.

(** After the last event: the end of the file ([UnexpectedEof]) or an error, again and again. *)
Record reader := mkRd { rd_events : list read_event; rd_final : errkind }.

(** [Read::read] on a buffer of [n] bytes: the bytes placed in it *)
Definition rd_read (n : nat) : M reader (list N) :=
  fun r =>
    match rd_events r with
    | [] => (match rd_final r with UnexpectedEof => Ok [] | OtherIo => Err (EIo OtherIo) end, r)
    | RInterrupted :: ev => (Err EInterrupted, mkRd ev (rd_final r))
    | RBytes bs :: ev =>
        if Nat.leb (List.length bs) n then (Ok bs, mkRd ev (rd_final r))
        else (Ok (firstn n bs), mkRd (RBytes (skipn n bs) :: ev) (rd_final r))
    end.

Section ReadExact.
  Context {S : Type} (read : nat -> M S (list N)).

  (** std's [default_read_exact]: [n] bytes still to be read, [fuel] calls of [read] allowed *)
  Fixpoint read_exact_loop (fuel : nat) (n : nat) : M S (list N) :=
    match n with
    | O => ret []
    | _ =>
        match fuel with
        | O => lift Diverge
        | Datatypes.S fuel' =>
            fun s =>
              match read n s with
              | (Ok got, s') =>
                  match got with
                  | [] => (Err (EIo UnexpectedEof), s')
                  | _ =>
                      if Nat.leb (List.length got) n
                      then (more <- read_exact_loop fuel' (n - List.length got) ;; ret (got ++ more)) s'
                      else (Panic "range start index out of range", s')
                  end
              | (Err EInterrupted, s') => read_exact_loop fuel' n s'
              | (Err e, s') => (Err e, s')
              | (Panic m, s') => (Panic m, s')
              | (Diverge, s') => (Diverge, s')
              end
        end
    end.
End ReadExact.

(** The default [Read::read_exact]; each call of [read] but the last uses up an event. *)
Definition rd_exact (n : nat) : M reader (list N) :=
  fun r => read_exact_loop rd_read (S (List.length (rd_events r))) n r.

(** Bytes still to come; only used as fuel. *)
Definition rd_left (r : reader) : nat :=
  fold_right (fun e n => match e with RBytes bs => (List.length bs + n)%nat | RInterrupted => n end) 0%nat (rd_events r).

(** filter.rs:19-23 on such a reader *)
Definition frd_exact (n : nat) : M (Filter reader) (list N) :=
  fun f => read_exact_loop (fr_read rd_read) (S (List.length (rd_events (f_inner f)))) n f.
Definition frd_left (f : Filter reader) : nat := rd_left (f_inner f).

(** The code that reads, on any reader [R] with its [read_exact]. *)
Section Reading.
  Context {R : Type} (exact : nat -> M R (list N)) (left : R -> nat).

  (** bit.rs:13-18 *)
  Record io_reader := mkIo { io_inner : R; io_current : N; io_remaining : N; io_track : option bitvec }.

  (** bit.rs:26-33 *)
  Definition io_new (inner : R) : io_reader := mkIo inner 0 0 None.

  (** bit.rs:35-38 *)
  Definition io_position : M io_reader N :=
    fun r => if io_remaining r <=? 7
             then (Ok ((8 - io_remaining r) mod 8), r)
             else (Panic "assert!(self.remaining_bits <= 7)", r).

  (** bit.rs:41-46 *)
  Definition io_refill : M io_reader unit :=
    fun r =>
      if 0 =? io_remaining r
      then match exact 1 (io_inner r) with
           | (Ok buf, s) => (Ok tt, mkIo s (nth 0 buf 0) 8 (io_track r))
           | (Err e, s) => (Err e, mkIo s (io_current r) (io_remaining r) (io_track r))
           | (Panic m, s) => (Panic m, mkIo s (io_current r) (io_remaining r) (io_track r))
           | (Diverge, s) => (Diverge, mkIo s (io_current r) (io_remaining r) (io_track r))
           end
      else (Ok tt, r).

  (** bit.rs:40-58 *)
  Definition io_read_bit : M io_reader bool :=
    io_refill ;;;
    (fun r =>
       let remaining := io_remaining r - 1 in
       let bit := N.land (N.shiftr (io_current r) (7 - remaining)) 1 in
       let bit := 1 =? bit in
       match io_track r with
       | None => (Ok bit, mkIo (io_inner r) (io_current r) remaining None)
       | Some vec =>
           match bv_push vec bit with
           | Ok vec' => (Ok bit, mkIo (io_inner r) (io_current r) remaining (Some vec'))
           | Err e => (Err e, r)
           | Panic m => (Panic m, r)
           | Diverge => (Diverge, r)
           end
       end).

  Definition io_assert_untracked : M io_reader unit :=
    fun r => match io_track r with
             | None => (Ok tt, r)
             | Some _ => (Panic "assert!(self.track.is_none())", r)
             end.

  (** bit.rs:63-65 *)
  Fixpoint io_align_loop (fuel : nat) : M io_reader unit :=
    match fuel with
    | O => lift Diverge
    | S fuel' =>
        p <- io_position ;;
        if 0 =? p then ret tt
        else b <- io_read_bit ;;
             ensure (negb b) "padding bits should always be empty" ;;;
             io_align_loop fuel'
    end.

  (** bit.rs:60-67 *)
  Definition io_align : M io_reader unit := io_assert_untracked ;;; io_align_loop 9.

  (** bit.rs:86-88, 98 *)
  Definition io_inner_read_exact (n : nat) : M io_reader (list N) :=
    zoom io_inner (fun s r => mkIo s (io_current r) (io_remaining r) (io_track r)) (exact n).

  Definition io_assert_aligned : M io_reader unit :=
    p <- io_position ;;
    assert_ (0 =? p) "assert_eq!(0, self.position())".

  (** bit.rs:93-101 *)
  Definition io_read_aligned_u16 : M io_reader N :=
    io_assert_aligned ;;;
    io_assert_untracked ;;;
    buf <- io_inner_read_exact 2 ;;
    ret (N.lor (N.shiftl (nth 1 buf 0) 8) (nth 0 buf 0)).

  (** bit.rs:73-91 *)
  Definition io_read_length_prefixed : M io_reader (list N) :=
    io_assert_aligned ;;;
    io_assert_untracked ;;;
    len <- io_read_aligned_u16 ;;
    ones_complement <- io_read_aligned_u16 ;;
    ensure (N.lxor len 65535 =? ones_complement) "uncompressed block length validation failed" ;;;
    io_inner_read_exact (N.to_nat len).

  (** parse.rs:74-113 *)
  Definition io_scan_huffman_data (length : code_tree) (distance : option code_tree) : M io_reader (list Code) :=
    fun r => scan_loop io_read_bit (S (8 * left (io_inner r) + N.to_nat (io_remaining r))) length distance r.

  (** parse.rs:61-64 *)
  Definition io_read_codes_collected : M io_reader ((code_tree * option code_tree) * bitvec) :=
    fun r =>
      match read_codes (bc_read_bit io_read_bit) (r, bv_new) with
      | (Ok trees, (r', data)) => (Ok (trees, data), r')
      | (Err e, (r', _)) => (Err e, r')
      | (Panic m, (r', _)) => (Panic m, r')
      | (Diverge, (r', _)) => (Diverge, r')
      end.

  (** parse.rs:47-72 *)
  Definition io_read_block : M io_reader Block :=
    ty <- read_part io_read_bit 2 ;;
    if ty =? 0 then
      io_align ;;;
      data <- io_read_length_prefixed ;;
      ret (Uncompressed data)
    else if ty =? 1 then
      length <- lift FIXED_LENGTH_TREE ;;
      distance <- lift FIXED_DISTANCE_TREE ;;
      codes <- io_scan_huffman_data length (Some distance) ;;
      ret (FixedHuffman codes)
    else if ty =? 2 then
      r <- io_read_codes_collected ;;
      let '((length, distance), trees) := r in
      codes <- io_scan_huffman_data length distance ;;
      ret (DynamicHuffman trees codes)
    else if ty =? 3 then fail "reserved block type"
    else panic "unreachable".

  (** parse.rs:22-25 *)
  Record io_iter := mkIoIter { ii_inner : io_reader; ii_end : bool }.

  (** parse.rs:15-20 *)
  Definition io_parse_deflate (bytes : R) : io_iter := mkIoIter (io_new bytes) false.

  (** parse.rs:30-44 *)
  Definition io_next : M io_iter (option Block) :=
    fun it =>
      if ii_end it
      then match io_align (ii_inner it) with
           | (Ok _, r) => (Ok None, mkIoIter r (ii_end it))
           | (Err e, r) => (Err e, mkIoIter r (ii_end it))
           | (Panic m, r) => (Panic m, mkIoIter r (ii_end it))
           | (Diverge, r) => (Diverge, mkIoIter r (ii_end it))
           end
      else match io_read_bit (ii_inner it) with
           | (Ok e, r) =>
               match io_read_block r with
               | (Ok b, r') => (Ok (Some b), mkIoIter r' e)
               | (Err er, r') => (Err er, mkIoIter r' e)
               | (Panic m, r') => (Panic m, mkIoIter r' e)
               | (Diverge, r') => (Diverge, mkIoIter r' e)
               end
           | (Err e, r) => (Err e, mkIoIter r (ii_end it))
           | (Panic m, r) => (Panic m, mkIoIter r (ii_end it))
           | (Diverge, r) => (Diverge, mkIoIter r (ii_end it))
           end.

  (** gzip.rs:58-67 *)
  Fixpoint io_null_terminated_loop (fuel : nat) (into : list N) : M R (list N) :=
    match fuel with
    | O => lift Diverge
    | S fuel' =>
        buf <- exact 1 ;;
        let b := nth 0 buf 0 in
        let into := into ++ [b] in
        if 0 =? b then ret into else io_null_terminated_loop fuel' into
    end.
  Definition io_null_terminated (into : list N) : M R (list N) :=
    fun s => io_null_terminated_loop (S (left s)) into s.

  (** gzip.rs:22-31 *)
  Definition io_extra (whole : list N) : M R (list N) :=
    buf <- exact 2 ;;
    let len := N.lor (N.shiftl (nth 1 buf 0) 8) (nth 0 buf 0) in
    extra <- exact (N.to_nat len) ;;
    ret (whole ++ buf ++ extra).

  (** gzip.rs:43-48 *)
  Definition io_hcrc (whole : list N) : M R (list N) := buf <- exact 2 ;; ret (whole ++ buf).

  (** gzip.rs:6-51 *)
  Definition io_discard_header : M R (list N) :=
    header <- exact 10 ;;
    let whole := header in
    ensure ((31 =? nth 0 header 0) && (139 =? nth 1 header 0)) "invalid magic" ;;;
    ensure (8 =? nth 2 header 0) "unsupported compression method" ;;;
    let flags := nth 3 header 0 in
    ensure (0 =? N.land flags 224) "reserved flags bits set" ;;;
    whole <- (if has_bit flags 2 then io_extra whole else ret whole) ;;
    whole <- (if has_bit flags 3 then io_null_terminated whole else ret whole) ;;
    whole <- (if has_bit flags 4 then io_null_terminated whole else ret whole) ;;
    (if has_bit flags 1 then io_hcrc whole else ret whole).

  (** serialise_trace.rs:68-87; byteorder's [read_u16] and [read_u8] call [read_exact] *)
  Fixpoint io_read_loop (fuel : nat) : M R (list Trace) :=
    match fuel with
    | O => lift Diverge
    | S fuel' =>
        fun s =>
          match exact 2 s with
          | (Ok buf, s) =>
              let first := nth 0 buf 0 + 256 * nth 1 buf 0 in
              (if 0 =? first then
                 more <- io_read_loop fuel' ;; ret (ActuallyLiteral :: more)
               else if first <=? 32768 then
                 b <- exact 1 ;;
                 r <- lift (Ref_new first (nth 0 b 0 + 3)) ;;
                 more <- io_read_loop fuel' ;; ret (Actually r :: more)
               else
                 let count := first - 32768 in
                 more <- io_read_loop fuel' ;;
                 ret (repeat Correct (N.to_nat count) ++ more)) s
          | (Err (EIo UnexpectedEof), s) => (Ok [], s)
          | (Err e, s) => (Err e, s)
          | (Panic m, s) => (Panic m, s)
          | (Diverge, s) => (Diverge, s)
          end
    end.
  (** serialise_trace.rs:65-90 *)
  Definition io_st_read : M R (list Trace) := fun s => io_read_loop (S (left s)) s.

  (** dump.rs:11-29 *)
  Fixpoint io_dump_loop (fuel : nat) (id : nat) (it : io_iter) : list dump_line * outcome unit :=
    match fuel with
    | O => ([], Diverge)
    | S fuel' =>
        match io_next it with
        | (Ok None, _) => ([], Ok tt)
        | (Ok (Some block), it') =>
            let '(more, o) := io_dump_loop fuel' (S id) it' in (dump_block id block ++ more, o)
        | (Err e, _) => ([], Err e)
        | (Panic m, _) => ([], Panic m)
        | (Diverge, _) => ([], Diverge)
        end
    end.

  (** dump.rs:9-32 *)
  Definition io_dump_run (reader : R) : list dump_line * outcome unit :=
    match io_discard_header reader with
    | (Ok _, reader') => io_dump_loop (8 * left reader' + 2) 0 (io_parse_deflate reader')
    | (Err e, _) => ([], Err e)
    | (Panic m, _) => ([], Panic m)
    | (Diverge, _) => ([], Diverge)
    end.
End Reading.
Arguments io_reader R : clear implicits.
Arguments io_iter R : clear implicits.

(** ** Writing *)

(** What successive calls of [Write::write] do: accept at most [k] bytes, or report an interruption. *)
Inductive write_event := WAccept (k : nat) | WInterrupted.

(** What was accepted; the events to come; whether writing fails afterwards or everything is accepted at once. *)
Record writer := mkWr { wr_written : list N; wr_events : list write_event; wr_fails : bool }.

(** [Write::write]: the number of bytes accepted.  [Ok(0)] and errors are both failures to [write_all]. *)
Definition wr_write (buf : list N) : M writer nat :=
  fun w =>
    match wr_events w with
    | [] =>
        if wr_fails w then (Err (EIo OtherIo), w)
        else (Ok (List.length buf), mkWr (wr_written w ++ buf) [] false)
    | WInterrupted :: ev => (Err EInterrupted, mkWr (wr_written w) ev (wr_fails w))
    | WAccept k :: ev =>
        if Nat.leb k (List.length buf)
        then (Ok k, mkWr (wr_written w ++ firstn k buf) ev (wr_fails w))
        else (Ok (List.length buf), mkWr (wr_written w ++ buf) (WAccept (k - List.length buf) :: ev) (wr_fails w))
    end.

Section WriteAll.
  Context {S : Type} (write : list N -> M S nat).

  (** std's [Write::write_all] *)
  Fixpoint write_all_loop (fuel : nat) (buf : list N) : M S unit :=
    match buf with
    | [] => ret tt
    | _ =>
        match fuel with
        | O => lift Diverge
        | Datatypes.S fuel' =>
            fun s =>
              match write buf s with
              | (Ok n, s') =>
                  if Nat.eqb n 0 then (Err (EIo OtherIo), s')
                  else if Nat.leb n (List.length buf) then write_all_loop fuel' (skipn n buf) s'
                  else (Panic "range start index out of range", s')
              | (Err EInterrupted, s') => write_all_loop fuel' buf s'
              | (Err e, s') => (Err e, s')
              | (Panic m, s') => (Panic m, s')
              | (Diverge, s') => (Diverge, s')
              end
        end
    end.
End WriteAll.

(** [Write::write_all]; each call of [write] but the last uses up an event. *)
Definition wr_all (bs : list N) : M writer unit :=
  fun w => write_all_loop wr_write (S (S (List.length (wr_events w)))) bs w.

(** filter.rs:45-49 on such a writer *)
Definition fwr_all (bs : list N) : M (Filter writer) unit :=
  fun f => write_all_loop (fw_write wr_write) (S (S (List.length (wr_events (f_inner f))))) bs f.

(** The code that writes, on any writer [W] with its [write_all]. *)
Section Writing.
  Context {W : Type} (all : list N -> M W unit).

  (** bit.rs:20-23 *)
  Record io_writer := mkIoW { iw_inner : W; iw_current : bitvec }.

  (** bit.rs:113-118 *)
  Definition iw_new (inner : W) : io_writer := mkIoW inner bv_new.

  Definition iw_inner_write_all (bs : list N) : M io_writer unit :=
    zoom iw_inner (fun s w => mkIoW s (iw_current w)) (all bs).

  Definition iw_lift_current {A} (f : bitvec -> outcome (A * bitvec)) : M io_writer A :=
    fun w => match f (iw_current w) with
             | Ok (a, v) => (Ok a, mkIoW (iw_inner w) v)
             | Err e => (Err e, w)
             | Panic m => (Panic m, w)
             | Diverge => (Diverge, w)
             end.

  (** bit.rs:120-128 *)
  Definition iw_write_bit (bit : bool) : M io_writer unit :=
    iw_lift_current (fun v => v' <-? bv_push v bit ;; Ok (tt, v')) ;;;
    (fun w =>
       if Nat.leb 8 (bv_len (iw_current w))
       then if Nat.eqb 8 (bv_len (iw_current w))
            then (o <- iw_lift_current bv_pop_byte ;;
                  match o with
                  | Some byte => iw_inner_write_all [byte]
                  | None => panic "unwrap on None"
                  end) w
            else (Panic "assert_eq!(8, self.current.len())", w)
       else (Ok tt, w)).

  (** bit.rs:130-135 *)
  Fixpoint iw_write_bits_val_loop (is : list nat) (val : N) : M io_writer unit :=
    match is with
    | [] => ret tt
    | i :: is' =>
        assert_ (Nat.ltb i 16) "attempt to shift left with overflow" ;;;
        iw_write_bit (negb (N.land val (N.shiftl 1 (N.of_nat i)) =? 0)) ;;;
        iw_write_bits_val_loop is' val
    end.
  Definition iw_write_bits_val (bits val : N) : M io_writer unit :=
    iw_write_bits_val_loop (seq 0 (N.to_nat bits)) val.

  (** bit.rs:137-142 *)
  Fixpoint iw_align_loop (fuel : nat) : M io_writer unit :=
    match fuel with
    | O => lift Diverge
    | S fuel' =>
        e <- iw_lift_current (fun v => e <-? bv_is_empty v ;; Ok (e, v)) ;;
        if (e : bool) then ret tt
        else iw_write_bit false ;;; iw_align_loop fuel'
    end.
  Definition iw_align : M io_writer unit := iw_align_loop 9.

  (** bit.rs:144-149 *)
  Fixpoint iw_write_iter (n : nat) (it : stack_iter) : M io_writer unit :=
    match n with
    | O => lift Diverge
    | S n' =>
        match si_next it with
        | (Ok (Some b), it') => iw_write_bit b ;;; iw_write_iter n' it'
        | (Ok None, _) => ret tt
        | (Err e, _) => lift (Err e)
        | (Panic m, _) => panic m
        | (Diverge, _) => lift Diverge
        end
    end.
  Definition iw_write_vec (v : bitvec) : M io_writer unit := iw_write_iter (S (bv_len v)) (bv_iter v).

  (** bit.rs:164-170 *)
  Definition iw_write_aligned_u16 (val : N) : M io_writer unit :=
    iw_inner_write_all [N.shiftr val 8; N.land val 255].

  (** bit.rs:151-162 *)
  Definition iw_write_length_prefixed (data : list N) : M io_writer unit :=
    iw_align ;;;
    let len := N.of_nat (List.length data) in
    ensure (len <=? 65535) "data too long to store" ;;;
    iw_write_aligned_u16 len ;;;
    iw_write_aligned_u16 (N.lxor len 65535) ;;;
    iw_inner_write_all data.

  (** serialise.rs:170-186 *)
  Definition iw_encode_run (length_tree : list (option bitvec)) (run : N) : M io_writer unit :=
    sym <- lift (encode_run_length run) ;;
    o <- lift (get_idx length_tree (N.to_nat sym)) ;;
    v <- lift (unwrap o) ;;
    iw_write_vec v ;;;
    x <- lift (extra_run_length run) ;;
    match x with
    | Some (bits, val) => iw_write_bits_val bits val
    | None => ret tt
    end.

  (** serialise.rs:188-206 *)
  Definition iw_encode_distance (tree : option (list (option bitvec))) (dist : N) : M io_writer unit :=
    x <- lift (huff_encode_distance dist) ;;
    match x with
    | Some (code, bits, val) =>
        match tree with
        | None => fail "reference but not distance tree"
        | Some distance_tree =>
            o <- lift (get_idx distance_tree (N.to_nat code)) ;;
            v <- lift (unwrap o) ;;
            iw_write_vec v ;;;
            if 0 <? bits then iw_write_bits_val bits val else ret tt
        end
    | None => ret tt
    end.

  (** serialise.rs:148-162 *)
  Definition iw_code (length_tree : list (option bitvec)) (distance_tree : option (list (option bitvec))) (c : Code)
    : M io_writer unit :=
    match c with
    | Literal byte =>
        o <- lift (get_idx length_tree (N.to_nat byte)) ;;
        match o with
        | Some v => iw_write_vec v
        | None => fail "invalid literal"
        end
    | Reference r =>
        iw_encode_run length_tree (r_run r) ;;;
        iw_encode_distance distance_tree (r_dist r)
    end.
  Fixpoint iw_codes_loop (length_tree : list (option bitvec)) (distance_tree : option (list (option bitvec)))
           (codes : list Code) : M io_writer unit :=
    match codes with
    | [] => ret tt
    | c :: codes' =>
        iw_code length_tree distance_tree c ;;;
        iw_codes_loop length_tree distance_tree codes'
    end.

  (** serialise.rs:135-168 *)
  Definition iw_compressed_codes (length_tree : code_tree) (distance_tree : option code_tree)
             (codes : list Code) : M io_writer unit :=
    length_tree <- lift (tree_invert length_tree) ;;
    distance_tree <- lift (invert_opt distance_tree) ;;
    assert_ (Nat.ltb 256 (List.length length_tree)) "assert!(length_tree.len() > 256)" ;;;
    iw_codes_loop length_tree distance_tree codes ;;;
    o <- lift (get_idx length_tree 256) ;;
    v <- lift (unwrap o) ;;
    iw_write_vec v.

  (** serialise.rs:57-85 *)
  Definition iw_compressed_block (block : Block) : M io_writer unit :=
    match block with
    | Uncompressed data =>
        iw_write_bits_val 2 0 ;;;
        iw_write_length_prefixed data
    | FixedHuffman codes =>
        iw_write_bits_val 2 1 ;;;
        l <- lift FIXED_LENGTH_TREE ;;
        d <- lift FIXED_DISTANCE_TREE ;;
        iw_compressed_codes l (Some d) codes
    | DynamicHuffman trees codes =>
        iw_write_bits_val 2 2 ;;;
        iw_write_vec trees ;;;
        r <- lift (fst (read_codes si_read_bit (bv_iter trees))) ;;
        let '(length, distance) := r in
        iw_compressed_codes length distance codes
    end.

  (** lib.rs:230-252 *)
  Fixpoint iw_blocks (blocks : list Block) : M io_writer unit :=
    match blocks with
    | [] => iw_align
    | block :: blocks' =>
        iw_write_bit (match blocks' with [] => true | _ => false end) ;;;
        iw_compressed_block block ;;;
        iw_blocks blocks'
    end.

  (** circles.rs:62-67 *)
  Fixpoint io_copy_loop (n : nat) (read_from : nat) : M (circ * W) unit :=
    match n with
    | O => ret tt
    | S n' =>
        fun st =>
          let '(b, out) := st in
          match get_idx (cb_data b) read_from with
          | Ok byte =>
              let read_from' := ((read_from + 1) mod List.length (cb_data b))%nat in
              match all [byte] out with
              | (Ok _, out') =>
                  match cb_push b byte with
                  | Ok b' => io_copy_loop n' read_from' (b', out')
                  | Err e => (Err e, (b, out'))
                  | Panic m => (Panic m, (b, out'))
                  | Diverge => (Diverge, (b, out'))
                  end
              | (Err e, out') => (Err e, (b, out'))
              | (Panic m, out') => (Panic m, (b, out'))
              | (Diverge, out') => (Diverge, (b, out'))
              end
          | Err e => (Err e, st)
          | Panic m => (Panic m, st)
          | Diverge => (Diverge, st)
          end
    end.

  (** circles.rs:46-70 *)
  Definition io_copy (dist len : N) : M (circ * W) unit :=
    fun st =>
      if (0 <? dist) && (dist <=? cb_valid (fst st))
      then (read_from <- lift (cb_read_from (fst st) dist) ;;
            io_copy_loop (N.to_nat len) read_from) st
      else (Err (EMsg "dist must fit"), st).

  (** serialise.rs:42-52 *)
  Fixpoint io_decompressed_codes (codes : list Code) : M (circ * W) unit :=
    match codes with
    | [] => ret tt
    | Literal byte :: codes' =>
        (fun st =>
           match cb_push (fst st) byte with
           | Ok d => let '(o, out) := all [byte] (snd st) in (o, (d, out))
           | Err e => (Err e, st)
           | Panic m => (Panic m, st)
           | Diverge => (Diverge, st)
           end) ;;;
        io_decompressed_codes codes'
    | Reference r :: codes' =>
        io_copy (r_dist r) (r_run r) ;;;
        io_decompressed_codes codes'
    end.

  (** serialise.rs:15-33 *)
  Definition io_decompressed_block (block : Block) : M (circ * W) unit :=
    match block with
    | Uncompressed data =>
        fun st =>
          match cb_extend (fst st) data with
          | Ok d => let '(o, out) := all data (snd st) in (o, (d, out))
          | Err e => (Err e, st)
          | Panic m => (Panic m, st)
          | Diverge => (Diverge, st)
          end
    | FixedHuffman codes | DynamicHuffman _ codes => io_decompressed_codes codes
    end.

  Context {R : Type} (exact : nat -> M R (list N)) (left : R -> nat).

  (** cat.rs:16-18 *)
  Fixpoint io_cat_loop (fuel : nat) (it : io_iter R) : M (circ * W) unit :=
    match fuel with
    | O => lift Diverge
    | S fuel' =>
        match io_next exact left it with
        | (Ok None, _) => ret tt
        | (Ok (Some block), it') => io_decompressed_block block ;;; io_cat_loop fuel' it'
        | (Err e, _) => lift (Err e)
        | (Panic m, _) => panic m
        | (Diverge, _) => lift Diverge
        end
    end.

  (** cat.rs:8-21 *)
  Definition io_cat_run (reader : R) (stdout : W) : outcome unit * W :=
    match io_discard_header exact left reader with
    | (Ok _, reader') =>
        match cb_new with
        | Ok dictionary =>
            let '(o, (_, out)) :=
              io_cat_loop (8 * left reader' + 2) (io_parse_deflate reader') (dictionary, stdout) in
            (o, out)
        | Err e => (Err e, stdout)
        | Panic m => (Panic m, stdout)
        | Diverge => (Diverge, stdout)
        end
    | (Err e, _) => (Err e, stdout)
    | (Panic m, _) => (Panic m, stdout)
    | (Diverge, _) => (Diverge, stdout)
    end.
End Writing.
Arguments io_writer W : clear implicits.
