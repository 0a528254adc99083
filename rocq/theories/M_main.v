(** Model of rezippers/src/main.rs: the commands as processes, with the parts of std between them and the operating
    system: [BufReader] around files and standard input, the line buffer of standard output and what happens to it at
    exit.  The readers and writers below that are those of [M_io]. *)
From Verif Require Import Base M_bit M_lib M_code_tree M_huffman M_circles M_gzip M_parse M_serialise M_rezippers M_debug M_dump M_text M_io.
Local Open Scope N_scope.
Local Open Scope model_scope.

(** ** Input *)

(** std's [BufReader]: the bytes in its buffer that were not handed out yet, and the reader below. *)
Record bufreader := mkBf { bf_buf : list N; bf_inner : reader }.

(** [BufReader]'s default capacity, also that of standard input *)
Definition BUF_READER : nat := N.to_nat 8192.

(** [BufReader::new] (main.rs:46) *)
Definition bf_new (r : reader) : bufreader := mkBf [] r.

(** [BufReader::read] on a buffer of [n] bytes: a large read past the buffer, otherwise from the buffer, which is
    refilled first if it is empty *)
Definition bf_read (n : nat) : M bufreader (list N) :=
  fun b =>
    match bf_buf b with
    | [] =>
        if Nat.leb BUF_READER n
        then let '(o, r) := rd_read n (bf_inner b) in (o, mkBf [] r)
        else
          match rd_read BUF_READER (bf_inner b) with
          | (Ok got, r) => (Ok (firstn n got), mkBf (skipn n got) r)
          | (Err e, r) => (Err e, mkBf [] r)
          | (Panic m, r) => (Panic m, mkBf [] r)
          | (Diverge, r) => (Diverge, mkBf [] r)
          end
    | buf => (Ok (firstn n buf), mkBf (skipn n buf) (bf_inner b))
    end.

(** [BufReader::read_exact]; every call of [read] but the last delivers a byte or uses up an event. *)
Definition bf_exact (n : nat) : M bufreader (list N) :=
  fun b =>
    if Nat.leb n (List.length (bf_buf b))
    then (Ok (firstn n (bf_buf b)), mkBf (skipn n (bf_buf b)) (bf_inner b))
    else read_exact_loop bf_read (S (n + List.length (rd_events (bf_inner b)))) n b.

(** Bytes still to come; only used as fuel. *)
Definition bf_left (b : bufreader) : nat := (List.length (bf_buf b) + rd_left (bf_inner b))%nat.

(** What a decoder that reads to the end sees. *)
Definition bf_source (b : bufreader) : source :=
  mkSource (bf_buf b ++ flat_map (fun e => match e with RBytes bs => bs | RInterrupted => [] end) (rd_events (bf_inner b)))
           (rd_final (bf_inner b)).

(** ** Standard output *)

(** std's [LineWriter] around the file descriptor: the bytes buffered, and the device. *)
Record stdout := mkOut { out_buf : list N; out_dev : writer }.

(** The capacity of standard output's buffer *)
Definition LINE_WRITER : nat := N.to_nat 1024.

(** [BufWriter::flush_buf]: what could not be written stays in the buffer *)
Fixpoint flush_loop (fuel : nat) : M stdout unit :=
  fun s =>
    match out_buf s with
    | [] => (Ok tt, s)
    | buf =>
        match fuel with
        | O => (Diverge, s)
        | S fuel' =>
            match wr_write buf (out_dev s) with
            | (Ok n, d) =>
                if Nat.eqb n 0 then (Err (EIo OtherIo), mkOut buf d)
                else if Nat.leb n (List.length buf) then flush_loop fuel' (mkOut (skipn n buf) d)
                else (Panic "range start index out of range", mkOut buf d)
            | (Err EInterrupted, d) => flush_loop fuel' (mkOut buf d)
            | (Err e, d) => (Err e, mkOut buf d)
            | (Panic m, d) => (Panic m, mkOut buf d)
            | (Diverge, d) => (Diverge, mkOut buf d)
            end
        end
    end.
Definition flush_buf : M stdout unit := fun s => flush_loop (S (S (List.length (wr_events (out_dev s))))) s.

Definition out_append (bs : list N) : M stdout unit := fun s => (Ok tt, mkOut (out_buf s ++ bs) (out_dev s)).
Definition out_direct (bs : list N) : M stdout unit := zoom out_dev (fun d s => mkOut (out_buf s) d) (wr_all bs).

(** [BufWriter::write_all] *)
Definition buf_write_all (bs : list N) : M stdout unit :=
  fun s =>
    let spare := (LINE_WRITER - List.length (out_buf s))%nat in
    if Nat.ltb (List.length bs) spare then out_append bs s
    else ((if Nat.ltb spare (List.length bs) then flush_buf else ret tt) ;;;
          (if Nat.leb LINE_WRITER (List.length bs) then out_direct bs else out_append bs)) s.

(** Up to and including the last newline, and what follows it; [None] without a newline *)
Fixpoint split_lines (bs : list N) : option (list N * list N) :=
  match bs with
  | [] => None
  | b :: bs' =>
      match split_lines bs' with
      | Some (l, t) => Some (b :: l, t)
      | None => if b =? 10 then Some ([b], bs') else None
      end
  end.

(** [LineWriter::write_all] *)
Definition out_write_all (bs : list N) : M stdout unit :=
  fun s =>
    match split_lines bs with
    | None => ((if last (out_buf s) 0 =? 10 then flush_buf else ret tt) ;;; buf_write_all bs) s
    | Some (l, t) =>
        (match out_buf s with
         | [] => out_direct l
         | _ => buf_write_all l ;;; flush_buf
         end ;;;
         buf_write_all t) s
    end.

(** ** Commands over any reader and writer *)

Section Zero.
  Context {W : Type} (all : list N -> M W unit).

  (** zero.rs:72-93 *)
  Fixpoint io_zero_loop (fuel : nat) (data_len data_csum : N) : M (byte_iter * W) (N * N) :=
    match fuel with
    | O => lift Diverge
    | S fuel' =>
        fun st =>
          match take_rsync (fst st) with
          | (Ok buf, reader) =>
              let st := (reader, snd st) in
              if is_nil buf then (Ok (data_len, data_csum), st)
              else
                let data_len := (data_len + N.of_nat (List.length buf)) mod 2 ^ 32 in
                let data_csum := crc_update data_csum buf in
                let put bs := zoom snd (fun s (st : byte_iter * W) => (fst st, s)) (all bs) in
                let len := N.of_nat (List.length buf) mod 65536 in
                (put [if negb (is_nil reader) then 0 else 1] ;;;
                 put (le_bytes 2 len) ;;;
                 put (le_bytes 2 (N.lxor len 65535)) ;;;
                 put buf ;;;
                 io_zero_loop fuel' data_len data_csum) st
          | (Err e, reader) => (Err e, (reader, snd st))
          | (Panic m, reader) => (Panic m, (reader, snd st))
          | (Diverge, reader) => (Diverge, (reader, snd st))
          end
    end.

  Context {R : Type} (exact : nat -> M R (list N)) (left : R -> nat).

  (** zero.rs:54-98; [inflate] as in [zero_run] *)
  Definition io_zero_run (inflate : R -> byte_iter) (reader : R) (stdout : W) : outcome unit * W :=
    match io_discard_header exact left reader with
    | (Ok orig_header, reader') =>
        let bytes := inflate reader' in
        if is_nil bytes then (Panic "TODO: can't deal with an empty file", stdout)
        else
          let m : M (byte_iter * W) unit :=
            let put bs := zoom snd (fun s (st : byte_iter * W) => (fst st, s)) (all bs) in
            put orig_header ;;;
            r <- io_zero_loop (S (List.length bytes)) 0 crc_digest ;;
            let '(data_len, data_csum) := r in
            put (le_bytes 4 (crc_finalize data_csum)) ;;;
            put (le_bytes 4 data_len) in
          let '(o, (_, out)) := m (bytes, stdout) in (o, out)
    | (Err e, _) => (Err e, stdout)
    | (Panic m, _) => (Panic m, stdout)
    | (Diverge, _) => (Diverge, stdout)
    end.

  (** One [println!] (dump.rs): the text is written in pieces, one [write_all] each; [println!] panics if that fails. *)
  Fixpoint write_pieces (pieces : list (list N)) : M W unit :=
    match pieces with
    | [] => ret tt
    | p :: pieces' => all p ;;; write_pieces pieces'
    end.
  Definition io_println (split : list N -> list (list N)) (line : list N) : M W unit :=
    fun w =>
      match write_pieces (split (line ++ [10])) w with
      | (Err _, w') => (Panic "failed printing to stdout", w')
      | r => r
      end.

  (** dump.rs:9-51: the lines are those of [io_dump_run]; reading has no effect seen from outside, so that they may be
      printed afterwards.  [split] is how [println!] splits a line into pieces. *)
  Fixpoint io_print_lines (split : list N -> list (list N)) (lines : list dump_line) : M W unit :=
    match lines with
    | [] => ret tt
    | l :: lines' => t <- lift (dump_line_text l) ;; io_println split t ;;; io_print_lines split lines'
    end.
  Definition io_dump_print (split : list N -> list (list N)) (reader : R) : M W unit :=
    let '(lines, o) := io_dump_run exact left reader in
    io_print_lines split lines ;;; lift o.
End Zero.

(** ** main.rs *)

(** main.rs:27-31, after clap has parsed the arguments *)
Inductive command := Cat (file : option string) | Dump (file : option string) | Zero (file : option string).
Definition command_file (c : command) : option string := match c with Cat f | Dump f | Zero f => f end.

(** Files that can be opened, standard input, and the device behind standard output *)
Record world := mkWorld { w_files : string -> outcome reader; w_stdin : reader; w_device : writer }.

(** main.rs:43-49; [io::stdin()] is a [BufReader], too *)
Definition open_file (w : world) (file : option string) : outcome bufreader :=
  match file with
  | Some path => r <-? w_files w path ;; Ok (bf_new r)
  | None => Ok (bf_new (w_stdin w))
  end.

Section Main.
  Context (inflate : source -> byte_iter) (split : list N -> list (list N)).

  (** main.rs:37-39 *)
  Definition run_command (c : command) (input : bufreader) (out : stdout) : outcome unit * stdout :=
    match c with
    | Cat _ => io_cat_run out_write_all bf_exact bf_left input out
    | Dump _ => io_dump_print out_write_all bf_exact bf_left split input out
    | Zero _ => io_zero_run out_write_all bf_exact bf_left (fun b => inflate (bf_source b)) input out
    end.

  (** The exit status of a [main] that returns [Result] or panics; [None]: it does not end *)
  Definition exit_status (o : outcome unit) : option N :=
    match o with Ok _ => Some 0 | Err _ => Some 1 | Panic _ => Some 101 | Diverge => None end.

  (** main.rs:33-41: the exit status and what the device received.  At exit the runtime flushes standard output and
      drops any error. *)
  Definition main_run (c : command) (w : world) : option N * list N :=
    let out := mkOut [] (w_device w) in
    let '(o, out) :=
      match open_file w (command_file c) with
      | Ok input => run_command c input out
      | Err e => (Err e, out)
      | Panic m => (Panic m, out)
      | Diverge => (Diverge, out)
      end in
    (exit_status o, wr_written (out_dev (snd (flush_buf out)))).
End Main.
