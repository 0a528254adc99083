(** Model of rezippers/src/cat.rs and rezippers/src/zero.rs *)
From Verif Require Import Base M_bit M_lib M_code_tree M_huffman M_circles M_gzip M_parse M_serialise.
Local Open Scope N_scope.
Local Open Scope model_scope.

(** ** cat.rs *)

(** cat.rs:16-18; [fuel] bounds the number of blocks *)
Fixpoint cat_loop (fuel : nat) (it : block_iter) : M (circ * sink) unit :=
  match fuel with
  | O => lift Diverge
  | S fuel' =>
      match bi_next it with
      | (Ok None, _) => ret tt
      | (Ok (Some block), it') => decompressed_block block ;;; cat_loop fuel' it'
      | (Err e, _) => lift (Err e)
      | (Panic m, _) => panic m
      | (Diverge, _) => lift Diverge
      end
  end.

(** cat.rs:8-21: result and what was written to stdout *)
Definition cat_run (reader : source) (stdout : sink) : outcome unit * sink :=
  match discard_header reader with
  | (Ok _, reader') =>
      match cb_new with
      | Ok dictionary =>
          let '(o, (_, out)) :=
            cat_loop (8 * List.length (rest reader') + 2) (parse_deflate reader') (dictionary, stdout) in
          (o, out)
      | Err e => (Err e, stdout)
      | Panic m => (Panic m, stdout)
      | Diverge => (Diverge, stdout)
      end
  | (Err e, _) => (Err e, stdout)
  | (Panic m, _) => (Panic m, stdout)
  | (Diverge, _) => (Diverge, stdout)
  end.

(** ** zero.rs *)

(** zero.rs:16-18 *)
Definition RSYNC_MIN : N := 1024 * 8.
Definition RSYNC_MOD : N := 1024 * 4.
Definition RSYNC_MAX : N := 1024 * 64.

(** An [Iterator<Item = io::Result<u8>>] is the list of what it will yield. *)
Definition byte_iter : Type := list (N + errkind).

(** [usize] wrapping arithmetic, 64 bits *)
Definition wrapping_add (a b : N) : N := (a + b) mod 2 ^ 64.
Definition wrapping_sub (a b : N) : N := (a + 2 ^ 64 - b) mod 2 ^ 64.

(** zero.rs:24-33: [true] if the loop ran to completion, [false] if it returned early *)
Fixpoint rsync_first (n : nat) (sum : N) (buf : list N) : M byte_iter (bool * N * list N) :=
  match n with
  | O => ret (true, sum, buf)
  | S n' =>
      fun from =>
        match from with
        | inl byte :: from' => rsync_first n' (wrapping_add sum byte) (buf ++ [byte]) from'
        | inr e :: from' => (Err (EIo e), from')
        | [] => (Ok (false, sum, buf), [])
        end
  end.

(** zero.rs:35-49: [n] iterations left, the next one is at [pos] *)
Fixpoint rsync_second (n : nat) (pos : nat) (sum : N) (buf : list N) : M byte_iter (list N) :=
  match n with
  | O => ret buf
  | S n' =>
      if 0 =? sum mod RSYNC_MOD then ret buf
      else
        fun from =>
          match from with
          | inl byte :: from' =>
              let sum := wrapping_add sum byte in
              match get_idx buf pos with
              | Ok old => rsync_second n' (S pos) (wrapping_sub sum old) (buf ++ [byte]) from'
              | Err e => (Err e, from')
              | Panic m => (Panic m, from')
              | Diverge => (Diverge, from')
              end
          | inr e :: from' => (Err (EIo e), from')
          | [] => (Ok buf, [])
          end
  end.

(** zero.rs:21-52 *)
Definition take_rsync : M byte_iter (list N) :=
  r <- rsync_first (N.to_nat RSYNC_MIN) 0 [] ;;
  let '(full, sum, buf) := r in
  if (full : bool) then rsync_second (N.to_nat (RSYNC_MAX - RSYNC_MIN)) 0 sum buf
  else ret buf.

(** The [crc] crate's CRC_32_ISO_HDLC (zero.rs:14), written out bit by bit.  Library code, not part of the
    repository. *)
Fixpoint crc_bits (n : nat) (c : N) : N :=
  match n with
  | O => c
  | S n' => crc_bits n' (if N.odd c then N.lxor (N.shiftr c 1) 3988292384 else N.shiftr c 1)
  end.
Definition crc_digest : N := 4294967295.
Definition crc_update (c : N) (bs : list N) : N :=
  fold_left (fun c b => crc_bits 8 (N.lxor c b)) bs c.
Definition crc_finalize (c : N) : N := N.lxor c 4294967295.

(** byteorder [write_u16::<LE>], [write_u32::<LE>] *)
Definition le_bytes (n : nat) (v : N) : list N :=
  map (fun i => (v / 256 ^ N.of_nat i) mod 256) (seq 0 n).

Definition is_nil {A} (l : list A) : bool := match l with [] => true | _ => false end.

(** zero.rs:72-93; state: the decompressed bytes still to come and stdout.  Returns [data_len] and
    [data_csum]. *)
Fixpoint zero_loop (fuel : nat) (data_len data_csum : N) : M (byte_iter * sink) (N * N) :=
  match fuel with
  | O => lift Diverge
  | S fuel' =>
      fun st =>
        match take_rsync (fst st) with
        | (Ok buf, reader) =>
            let st := (reader, snd st) in
            if is_nil buf then (Ok (data_len, data_csum), st)
            else
              let data_len := (data_len + N.of_nat (List.length buf)) mod 2 ^ 32 in
              let data_csum := crc_update data_csum buf in
              let put bs := zoom snd (fun s (st : byte_iter * sink) => (fst st, s)) (write_all bs) in
              let len := N.of_nat (List.length buf) mod 65536 in
              (put [if negb (is_nil reader) then 0 else 1] ;;;
               put (le_bytes 2 len) ;;;
               put (le_bytes 2 (N.lxor len 65535)) ;;;
               put buf ;;;
               zero_loop fuel' data_len data_csum) st
        | (Err e, reader) => (Err e, (reader, snd st))
        | (Panic m, reader) => (Panic m, (reader, snd st))
        | (Diverge, reader) => (Diverge, (reader, snd st))
        end
  end.

(** zero.rs:54-98.  [inflate] is flate2's [DeflateDecoder]: what its byte iterator yields for the rest
    of the input. *)
Definition zero_run (inflate : source -> byte_iter) (reader : source) (stdout : sink)
  : outcome unit * sink :=
  match discard_header reader with
  | (Ok orig_header, reader') =>
      let bytes := inflate reader' in
      if is_nil bytes then (Panic "TODO: can't deal with an empty file", stdout)
      else
        let m : M (byte_iter * sink) unit :=
          let put bs := zoom snd (fun s (st : byte_iter * sink) => (fst st, s)) (write_all bs) in
          put orig_header ;;;
          r <- zero_loop (S (List.length bytes)) 0 crc_digest ;;
          let '(data_len, data_csum) := r in
          put (le_bytes 4 (crc_finalize data_csum)) ;;;
          put (le_bytes 4 data_len) in
        let '(o, (_, out)) := m (bytes, stdout) in (o, out)
  | (Err e, _) => (Err e, stdout)
  | (Panic m, _) => (Panic m, stdout)
  | (Diverge, _) => (Diverge, stdout)
  end.
