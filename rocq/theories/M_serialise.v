(** Model of lib/src/serialise.rs *)
From Verif Require Import Base M_bit M_lib M_code_tree M_huffman M_circles.
Local Open Scope N_scope.
Local Open Scope model_scope.

(** ** Decompression *)

(** serialise.rs:42-52 *)
Fixpoint decompressed_codes (codes : list Code) : M (circ * sink) unit :=
  match codes with
  | [] => ret tt
  | Literal byte :: codes' =>
      (fun st =>
         match cb_push (fst st) byte with
         | Ok d =>
             let '(o, out) := write_all [byte] (snd st) in (o, (d, out))
         | Err e => (Err e, st)
         | Panic m => (Panic m, st)
         | Diverge => (Diverge, st)
         end) ;;;
      decompressed_codes codes'
  | Reference r :: codes' =>
      cb_copy (r_dist r) (r_run r) ;;;
      decompressed_codes codes'
  end.

(** serialise.rs:15-33 *)
Definition decompressed_block (block : Block) : M (circ * sink) unit :=
  match block with
  | Uncompressed data =>
      fun st =>
        match cb_extend (fst st) data with
        | Ok d => let '(o, out) := write_all data (snd st) in (o, (d, out))
        | Err e => (Err e, st)
        | Panic m => (Panic m, st)
        | Diverge => (Diverge, st)
        end
  | FixedHuffman codes | DynamicHuffman _ codes => decompressed_codes codes
  end.

(** ** Compression *)

Definition unwrap {A} (o : option A) : outcome A :=
  match o with
  | Some a => Ok a
  | None => Panic "called `Option::unwrap()` on a `None` value"
  end.

(** serialise.rs:170-186 *)
Definition encode_run (length_tree : list (option bitvec)) (run : N) : M bit_writer unit :=
  sym <- lift (encode_run_length run) ;;
  o <- lift (get_idx length_tree (N.to_nat sym)) ;;
  v <- lift (unwrap o) ;;
  bw_write_vec v ;;;
  x <- lift (extra_run_length run) ;;
  match x with
  | Some (bits, val) => bw_write_bits_val bits val
  | None => ret tt
  end.

(** serialise.rs:188-206 *)
Definition encode_distance (tree : option (list (option bitvec))) (dist : N) : M bit_writer unit :=
  x <- lift (huff_encode_distance dist) ;;
  match x with
  | Some (code, bits, val) =>
      match tree with
      | None => fail "reference but not distance tree"
      | Some distance_tree =>
          o <- lift (get_idx distance_tree (N.to_nat code)) ;;
          v <- lift (unwrap o) ;;
          bw_write_vec v ;;;
          if 0 <? bits then bw_write_bits_val bits val else ret tt
      end
  | None => ret tt
  end.

(** serialise.rs:148-162, one iteration *)
Definition compressed_code (length_tree : list (option bitvec))
           (distance_tree : option (list (option bitvec))) (c : Code) : M bit_writer unit :=
  match c with
  | Literal byte =>
      o <- lift (get_idx length_tree (N.to_nat byte)) ;;
      match o with
      | Some v => bw_write_vec v
      | None => fail "invalid literal"
      end
  | Reference r =>
      encode_run length_tree (r_run r) ;;;
      encode_distance distance_tree (r_dist r)
  end.

Fixpoint compressed_codes_loop (length_tree : list (option bitvec))
         (distance_tree : option (list (option bitvec))) (codes : list Code) : M bit_writer unit :=
  match codes with
  | [] => ret tt
  | c :: codes' =>
      compressed_code length_tree distance_tree c ;;;
      compressed_codes_loop length_tree distance_tree codes'
  end.

Definition invert_opt (t : option code_tree) : outcome (option (list (option bitvec))) :=
  match t with
  | None => Ok None
  | Some tree => l <-? tree_invert tree ;; Ok (Some l)
  end.

(** serialise.rs:135-168 *)
Definition compressed_codes (length_tree : code_tree) (distance_tree : option code_tree)
           (codes : list Code) : M bit_writer unit :=
  length_tree <- lift (tree_invert length_tree) ;;
  distance_tree <- lift (invert_opt distance_tree) ;;
  assert_ (Nat.ltb 256 (List.length length_tree)) "assert!(length_tree.len() > 256)" ;;;
  compressed_codes_loop length_tree distance_tree codes ;;;
  o <- lift (get_idx length_tree 256) ;;
  v <- lift (unwrap o) ;;
  bw_write_vec v.

(** serialise.rs:57-85 *)
Definition compressed_block (block : Block) : M bit_writer unit :=
  match block with
  | Uncompressed data =>
      bw_write_bits_val 2 0 ;;;
      bw_write_length_prefixed data
  | FixedHuffman codes =>
      bw_write_bits_val 2 1 ;;;
      l <- lift FIXED_LENGTH_TREE ;;
      d <- lift FIXED_DISTANCE_TREE ;;
      compressed_codes l (Some d) codes
  | DynamicHuffman trees codes =>
      bw_write_bits_val 2 2 ;;;
      bw_write_vec trees ;;;
      r <- lift (fst (read_codes si_read_bit (bv_iter trees))) ;;
      let '(length, distance) := r in
      compressed_codes length distance codes
  end.

(** The re-serialisation loop every caller writes (lib.rs:230-252, serialise.rs:228-240): the final
    flag, then the block; [align] after the last one. *)
Fixpoint compress_blocks (blocks : list Block) : M bit_writer unit :=
  match blocks with
  | [] => bw_align
  | block :: blocks' =>
      bw_write_bit (match blocks' with [] => true | _ => false end) ;;;
      compressed_block block ;;;
      compress_blocks blocks'
  end.

(** ... into an empty vector, finished with [into_inner]. *)
Definition compress_all (blocks : list Block) : outcome (list N) :=
  let '(o, w) := compress_blocks blocks (bw_new new_sink) in
  _ <-? o ;;
  s <-? bw_into_inner w ;;
  Ok (written s).

(** ** Cost estimation (serialise.rs:87-133) *)

(** serialise.rs:93-98; [as u8] truncates *)
Definition tree_to_lengths (tree : code_tree) : outcome (list (option N)) :=
  inv <-? tree_invert tree ;;
  Ok (map (fun o => match o with
                    | Some v => Some (N.of_nat (bv_len v) mod 256)
                    | None => None
                    end) inv).

(** serialise.rs:87-91 *)
Record Lengths := mkLengths {
  ls_length : list (option N);
  ls_distance : list (option N);
  ls_mean_literal_len : N }.

Definition somes {A} (l : list (option A)) : list A :=
  flat_map (fun o => match o with Some a => [a] | None => [] end) l.

(** serialise.rs:101-110 *)
Definition Lengths_new (length_tree distance_tree : code_tree) : outcome Lengths :=
  length <-? tree_to_lengths length_tree ;;
  let all_lengths := fold_left N.add (somes length) 0 in
  let populated_lengths := 1 + N.of_nat (List.length (somes length)) in
  distance <-? tree_to_lengths distance_tree ;;
  Ok (mkLengths length distance (((all_lengths + populated_lengths) / populated_lengths) mod 256)).

(** serialise.rs:112-132; the sum is a [u8] sum *)
Definition Lengths_length (ls : Lengths) (c : Code) : outcome (option N) :=
  match c with
  | Literal byte => get_idx (ls_length ls) (N.to_nat byte)
  | Reference r =>
      run_symbol <-? encode_run_length (r_run r) ;;
      o <-? get_idx (ls_length ls) (N.to_nat run_symbol) ;;
      match o with
      | None => Ok None
      | Some run_symbol_len =>
          x <-? huff_encode_distance (r_dist r) ;;
          match x with
          | None => Panic "called `Option::unwrap()` on a `None` value"
          | Some (code, bit_count, _) =>
              o <-? get_idx (ls_distance ls) (N.to_nat code) ;;
              match o with
              | None => Ok None
              | Some distance_symbol_len =>
                  let total := run_symbol_len + distance_symbol_len + bit_count in
                  if total <? 256 then Ok (Some total) else Panic "attempt to add with overflow"
              end
          end
      end
  end.
