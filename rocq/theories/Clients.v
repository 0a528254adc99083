(** Client programs the properties talk about: sequences of API calls, and what a plain list says they
    should do.  Nothing here models code of the repository. *)
From Verif Require Import Base M_bit M_lib M_circles M_parse M_serialise M_all_refs M_technique M_trace M_rezippers M_filter Spec.
Local Open Scope N_scope.
Local Open Scope model_scope.

(** [for b in bits { writer.write_bit(b)?; }] *)
Fixpoint write_bits (bits : list bool) : M bit_writer unit :=
  match bits with
  | [] => ret tt
  | b :: bits' => bw_write_bit b ;;; write_bits bits'
  end.

(** [(0..n).map(|_| reader.read_bit()).collect()] *)
Fixpoint read_bits (n : nat) : M bit_reader (list bool) :=
  match n with
  | O => ret []
  | S n' => b <- br_read_bit ;; l <- read_bits n' ;; ret (b :: l)
  end.

(** [for b in bits { vec.push(b) }] *)
Fixpoint push_all (bits : list bool) (v : bitvec) : outcome bitvec :=
  match bits with
  | [] => Ok v
  | b :: bits' => v' <-? bv_push v b ;; push_all bits' v'
  end.

(** One call on a writer. *)
Inductive write_op :=
| WBit (b : bool)
| WVal (width val : N)
| WVec (bits : list bool)  (* a BitVec filled with [push] *)
| WAlign.

Definition run_write_op (op : write_op) : M bit_writer unit :=
  match op with
  | WBit b => bw_write_bit b
  | WVal n v => bw_write_bits_val n v
  | WVec bits => v <- lift (push_all bits bv_new) ;; bw_write_vec v
  | WAlign => bw_align
  end.

Fixpoint run_write_ops (ops : list write_op) : M bit_writer unit :=
  match ops with
  | [] => ret tt
  | op :: ops' => run_write_op op ;;; run_write_ops ops'
  end.

(** The stream after each call, as a list of bits. *)
Definition after_write_op (stream : list bool) (op : write_op) : list bool :=
  match op with
  | WBit b => stream ++ [b]
  | WVal n v => stream ++ lsb (N.to_nat n) v
  | WVec bits => stream ++ bits
  | WAlign => stream ++ repeat false ((8 - List.length stream mod 8) mod 8)
  end.

Definition write_op_ok (op : write_op) : Prop :=
  match op with
  | WVal n v => n <= 16
  | _ => True
  end.

(** Histories of [push] and [pop] on a bit vector, and on a list (last element on top). *)
Inductive vec_op := VPush (b : bool) | VPop.

Fixpoint run_vec_ops (ops : list vec_op) (v : bitvec) : outcome (list (option bool) * bitvec) :=
  match ops with
  | [] => Ok ([], v)
  | VPush b :: ops' => v' <-? bv_push v b ;; run_vec_ops ops' v'
  | VPop :: ops' =>
      p <-? bv_pop v ;;
      r <-? run_vec_ops ops' (snd p) ;;
      Ok (fst p :: fst r, snd r)
  end.

Fixpoint list_vec_ops (ops : list vec_op) (l : list bool) : list (option bool) * list bool :=
  match ops with
  | [] => ([], l)
  | VPush b :: ops' => list_vec_ops ops' (l ++ [b])
  | VPop :: ops' =>
      let top := match l with [] => None | _ => Some (last l false) end in
      let r := list_vec_ops ops' (removelast l) in
      (top :: fst r, snd r)
  end.

(** A history step other than pushing a zero. *)
Definition no_false (op : vec_op) : Prop := match op with VPush b => b = true | VPop => True end.

(** [r] is the state of a fresh reader over [bytes] after [off] single-bit reads. *)
Definition at_bit (bytes : list N) (e : errkind) (off : nat) (r : bit_reader) : Prop :=
  exists l, read_bits off (br_new (mkSource bytes e)) = (Ok l, r).

(** The bits of [bytes] from offset [off] on start with [w]. *)
Definition bits_at (bytes : list N) (off : nat) (w : list bool) : Prop :=
  exists follow, skipn off (bits_of_bytes bytes) = w ++ follow.

(** Neither a panic nor (in the model) exhausted fuel. *)
Definition returns {A} (o : outcome A) : Prop :=
  match o with Ok _ | Err _ => True | Panic _ | Diverge => False end.

(** [n] calls of [next] on a block iterator, whatever they return. *)
Fixpoint call_next (n : nat) (it : block_iter) : list (outcome (option Block)) * block_iter :=
  match n with
  | O => ([], it)
  | S n' =>
      let '(o, it1) := bi_next it in
      let '(os, it2) := call_next n' it1 in
      (o :: os, it2)
  end.

(** One call on a window buffer. *)
Inductive circ_op := CPush (b : N) | CExtend (l : list N).

Definition run_circ_op (op : circ_op) (b : circ) : outcome circ :=
  match op with CPush x => cb_push b x | CExtend l => cb_extend b l end.

Fixpoint run_circ_ops (ops : list circ_op) (b : circ) : outcome circ :=
  match ops with
  | [] => Ok b
  | op :: ops' => b' <-? run_circ_op op b ;; run_circ_ops ops' b'
  end.

(** All bytes ever pushed, oldest first. *)
Definition pushed (ops : list circ_op) : list N :=
  flat_map (fun op => match op with CPush x => [x] | CExtend l => l end) ops.

(** [b] is a buffer made by [with_capacity(cap)] after a history of calls that pushed [hist]. *)
Definition window_after (cap : N) (hist : list N) (b : circ) : Prop :=
  exists b0 ops, cb_with_capacity cap = Ok b0 /\ run_circ_ops ops b0 = Ok b /\ hist = pushed ops.

(** [for block in blocks { decompressed_block(&mut into, &mut dictionary, &block)?; }] *)
Fixpoint decompress_blocks (blocks : list Block) : M (circ * sink) unit :=
  match blocks with
  | [] => ret tt
  | b :: blocks' => decompressed_block b ;;; decompress_blocks blocks'
  end.

(** A fresh writer that accepts [room] bytes ([None]: any number) and then fails. *)
Definition sink_with (room : option nat) : sink := mkSink [] room.

(** ** Tracing *)

(** [codes] are the codes the technique itself produces from the scanner state [s] to the end of the data:
    it emits all its guesses and goes on after them. *)
Inductive generates (t : Technique) : Scanner -> list Code -> Prop :=
| generates_end s : more_data t s = false -> generates t s []
| generates_step s guesses codes :
    more_data t s = true -> sc_codes t s = Ok guesses ->
    generates t (fold_left (feedback t) guesses s) codes -> generates t s (guesses ++ codes).

(** ** Taking a stream apart and putting it together again *)

(** What is kept of a block: the framing, the decompressed data, and for compressed blocks the serialised
    trace. *)
Inductive part :=
| PStored (data : list N)
| PFixed (data trace : list N)
| PDynamic (trees : bitvec) (data trace : list N).

Definition part_data (p : part) : list N :=
  match p with PStored d | PFixed d _ | PDynamic _ d _ => d end.

(** [serialise_trace::write(&tracer::try_gzip(level, preroll, data, codes))] *)
Definition trace_to_bytes (level : N) (preroll data : list N) (codes : list Code) : outcome (list N) :=
  hints <-? try_gzip level preroll data codes ;; st_write hints.

(** The loop of lib/tests/tracing_size.rs:12-32, keeping the parts. *)
Fixpoint take_apart (level : N) (blocks : list Block) (dictionary : circ) : outcome (list part) :=
  match blocks with
  | [] => Ok []
  | block :: blocks' =>
      preroll <-? cb_vec true dictionary ;;
      let '(o, (dictionary', out)) := decompressed_block block (dictionary, new_sink) in
      _ <-? o ;;
      let data := written out in
      p <-? match block with
            | Uncompressed _ => Ok (PStored data)
            | FixedHuffman codes => t <-? trace_to_bytes level preroll data codes ;; Ok (PFixed data t)
            | DynamicHuffman trees codes => t <-? trace_to_bytes level preroll data codes ;; Ok (PDynamic trees data t)
            end ;;
      ps <-? take_apart level blocks' dictionary' ;;
      Ok (p :: ps)
  end.

(** [trace::restore(&serialise_trace::read(bytes)?, &Technique::new(Config::gzip(level), &refs))], with the
    same candidate limit as [try_gzip]. *)
Definition bytes_to_codes (level : N) (preroll data bytes : list N) : outcome (list Code) :=
  config <-? Config_gzip level ;;
  refs <-? with_sixteen preroll data
             (match insert_only_below_length (cfg_wams config) with Some l => l | None => 65535 end) ;;
  hints <-? fst (st_read (mkSource bytes UnexpectedEof)) ;;
  restore hints (mkTechnique config refs).

Fixpoint put_together (level : N) (parts : list part) (dictionary : circ) : outcome (list Block) :=
  match parts with
  | [] => Ok []
  | p :: parts' =>
      preroll <-? cb_vec true dictionary ;;
      block <-? match p with
                | PStored data => Ok (Uncompressed data)
                | PFixed data t => codes <-? bytes_to_codes level preroll data t ;; Ok (FixedHuffman codes)
                | PDynamic trees data t => codes <-? bytes_to_codes level preroll data t ;; Ok (DynamicHuffman trees codes)
                end ;;
      dictionary' <-? cb_extend dictionary (part_data p) ;;
      blocks <-? put_together level parts' dictionary' ;;
      Ok (block :: blocks)
  end.

(** Streams that decode, and in which no block that follows other output needs the hint "really a literal". *)
Inductive traceable (level : N) : list N -> list Block -> Prop :=
| tr_nil : forall hist, traceable level hist []
| tr_cons : forall hist data b blocks,
    lz_decode 32768 hist (block_codes b) = Some (hist ++ data) ->
    (hist = [] \/ (exists d, b = Uncompressed d)
     \/ forall config refs hints, Config_gzip level = Ok config ->
          with_sixteen (lastn (N.to_nat 32768) hist) data
            (match insert_only_below_length (cfg_wams config) with Some l => l | None => 65535 end) = Ok refs ->
          trace (block_codes b) (mkTechnique config refs) = Ok hints -> ~ In ActuallyLiteral hints) ->
    traceable level (hist ++ data) blocks ->
    traceable level hist (b :: blocks).

(** [while let chunk = take_rsync(&mut from)?, !chunk.is_empty() { chunks.push(chunk) }] *)
Fixpoint take_all (fuel : nat) (from : byte_iter) : outcome (list (list N)) :=
  match fuel with
  | O => Diverge
  | S fuel' =>
      match take_rsync from with
      | (Ok chunk, from') =>
          match chunk with
          | [] => Ok []
          | _ => chunks <-? take_all fuel' from' ;; Ok (chunk :: chunks)
          end
      | (Err e, _) => Err e
      | (Panic m, _) => Panic m
      | (Diverge, _) => Diverge
      end
  end.

(** How many bits a writer has been given. *)
Definition bits_out (w : bit_writer) : N :=
  8 * N.of_nat (List.length (written (bw_inner w))) + N.of_nat (bv_len (bw_current w)).

(** ** Sequences of calls on a stream *)

(** [reader.read(&mut vec![0; n])] for each [n], up to the first panic. *)
Fixpoint do_reads {S} (read : nat -> M S (list N)) (sizes : list nat) (s : S) : list (outcome (list N)) * S :=
  match sizes with
  | [] => ([], s)
  | n :: sizes' =>
      let '(o, s1) := read n s in
      match o with
      | Ok _ | Err _ => let '(os, s2) := do_reads read sizes' s1 in (o :: os, s2)
      | _ => ([o], s1)
      end
  end.

(** [writer.write(buf)] or [writer.flush()], up to the first panic; a flush reports 0. *)
Inductive stream_op := SWrite (buf : list N) | SFlush.

Definition do_write {S} (write : list N -> M S nat) (flush : M S unit) (op : stream_op) : M S nat :=
  match op with
  | SWrite buf => write buf
  | SFlush => fun s => let '(o, s1) := flush s in (_ <-? o ;; Ok O, s1)
  end.

Fixpoint do_writes {S} (write : list N -> M S nat) (flush : M S unit) (ops : list stream_op) (s : S)
  : list (outcome nat) * S :=
  match ops with
  | [] => ([], s)
  | op :: ops' =>
      let '(o, s1) := do_write write flush op s in
      match o with
      | Ok _ | Err _ => let '(os, s2) := do_writes write flush ops' s1 in (o :: os, s2)
      | _ => ([o], s1)
      end
  end.

(** The bytes transferred. *)
Definition bytes_read (os : list (outcome (list N))) : list N :=
  flat_map (fun o => match o with Ok bs => bs | _ => [] end) os.
Definition bytes_accepted (ops : list stream_op) (os : list (outcome nat)) : list N :=
  flat_map (fun p => match p with (SWrite buf, Ok n) => firstn n buf | _ => [] end) (combine ops os).
