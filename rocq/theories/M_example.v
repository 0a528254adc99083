(** Model of lib/examples/trace.rs *)
From Verif Require Import Base M_bit M_lib M_code_tree M_huffman M_circles M_gzip M_parse M_serialise M_all_refs M_technique M_trace.
Local Open Scope N_scope.
Local Open Scope model_scope.

(** A printed line, as the values that are formatted into it.  Simplified: fixed text and formats are left out, and
    printing does not fail. *)
Inductive example_line :=
| XBlock (id : nat)                                                   (* trace.rs:32 *)
| XStored (len : nat)                                                 (* trace.rs:36 *)
| XFixed                                                              (* trace.rs:40 *)
| XDynamic (trees : bitvec)                                           (* trace.rs:44 *)
| XSize (name : string) (bytes : nat)                                 (* trace.rs:128 *)
| XHint (pos : nat) (context : list N) (guess : list Code) (hint : Trace)  (* trace.rs:138-150 *)
| XGuesser (technique : Technique) (scanner : Scanner)                (* trace.rs:156 *)
| XBlank.                                                             (* trace.rs:158 *)

(** [println!]; the state is what has been printed so far. *)
Definition example_println (l : example_line) : M (list example_line) unit := fun printed => (Ok tt, printed ++ [l]).

(** [&v[a..b]] *)
Definition slice {A} (v : list A) (a b : nat) : outcome (list A) :=
  if Nat.ltb b a then Panic "slice index starts at a but ends at b"
  else if Nat.ltb (List.length v) b then Panic "range end index out of range for slice"
  else Ok (skipn a (firstn b v)).

(** trace.rs:131-154: the loop over hints and codes; returns the scanner *)
Fixpoint example_hints (t : Technique) (decompressed : list N) (s : Scanner) (traces : list Trace) (codes : list Code)
  : M (list example_line) Scanner :=
  match traces, codes with
  | h :: traces', c :: codes' =>
      location_hint <- lift (slice decompressed (sc_pos s - 5) (Nat.min (sc_pos s + 5) (List.length decompressed))) ;;
      match h with
      | Correct => ret tt
      | _ => guess <- lift (sc_codes t s) ;; example_println (XHint (sc_pos s) location_hint guess h)
      end ;;;
      example_hints t decompressed (feedback t s c) traces' codes'
  | _, _ => ret s
  end.

(** trace.rs:124-159 *)
Definition example_try_trace (all_refs : AllRefs) (name : string) (config : Config) (codes : list Code) (decompressed : list N)
  : M (list example_line) unit :=
  let technique := mkTechnique config all_refs in
  trace <- lift (validate codes technique) ;;
  serialised <- lift (st_verify trace) ;;
  example_println (XSize name (List.length serialised)) ;;;
  s <- example_hints technique decompressed (scanner technique) trace codes ;;
  example_println (XGuesser technique s) ;;;
  example_println XBlank.

(** State of the example: the dictionary and what has been printed. *)
Definition on_printed {A} (m : M (list example_line) A) : M (circ * list example_line) A :=
  zoom snd (fun p (st : circ * list example_line) => (fst st, p)) m.

(** trace.rs:53-122; only the calls under [if true] *)
Definition example_print (codes : list Code) : M (circ * list example_line) unit :=
  fun st =>
    match cb_vec true (fst st) with
    | Ok old_dictionary =>
        match decompressed_codes codes (fst st, new_sink) with
        | (Ok _, (dictionary, out)) =>
            let decompressed := written out in
            (refs_1 <- lift (with_sixteen old_dictionary decompressed 4) ;;
             refs_3 <- lift (with_sixteen old_dictionary decompressed 6) ;;
             all_refs <- lift (with_sixteen old_dictionary decompressed 65535) ;;
             fast <- lift (Config_gzip 1) ;;
             on_printed (example_try_trace refs_1 "gzip --fast" fast codes decompressed) ;;;
             default <- lift Config_gzip_16_default ;;
             on_printed (example_try_trace all_refs "gzip [--default]" default codes decompressed)) (dictionary, snd st)
        | (Err e, (dictionary, _)) => (Err e, (dictionary, snd st))
        | (Panic m, (dictionary, _)) => (Panic m, (dictionary, snd st))
        | (Diverge, (dictionary, _)) => (Diverge, (dictionary, snd st))
        end
    | Err e => (Err e, st)
    | Panic m => (Panic m, st)
    | Diverge => (Diverge, st)
    end.

(** trace.rs:32-47: one block *)
Definition example_block (id : nat) (block : Block) : M (circ * list example_line) unit :=
  on_printed (example_println (XBlock id)) ;;;
  match block with
  | Uncompressed data =>
      on_printed (example_println (XStored (List.length data))) ;;;
      fun st => match cb_extend (fst st) data with
                | Ok d' => (Ok tt, (d', snd st))
                | Err e => (Err e, st)
                | Panic m => (Panic m, st)
                | Diverge => (Diverge, st)
                end
  | FixedHuffman codes => on_printed (example_println XFixed) ;;; example_print codes
  | DynamicHuffman trees codes => on_printed (example_println (XDynamic trees)) ;;; example_print codes
  end.

(** trace.rs:29-48; [fuel] bounds the number of blocks *)
Fixpoint example_loop (fuel : nat) (id : nat) (it : block_iter) : M (circ * list example_line) unit :=
  match fuel with
  | O => lift Diverge
  | S fuel' =>
      match bi_next it with
      | (Ok None, _) => ret tt
      | (Ok (Some block), it') => example_block id block ;;; example_loop fuel' (S id) it'
      | (Err e, _) => lift (Err e)
      | (Panic m, _) => panic m
      | (Diverge, _) => lift Diverge
      end
  end.

(** trace.rs:20-51, from the opened file: what is printed and the result *)
Definition example_run (reader : source) : list example_line * outcome unit :=
  match discard_header reader with
  | (Ok _, reader') =>
      match cb_new with
      | Ok dictionary =>
          let '(o, (_, printed)) :=
            example_loop (8 * List.length (rest reader') + 2) 0 (parse_deflate reader') (dictionary, []) in
          (printed, o)
      | Err e => ([], Err e)
      | Panic m => ([], Panic m)
      | Diverge => ([], Diverge)
      end
  | (Err e, _) => ([], Err e)
  | (Panic m, _) => ([], Panic m)
  | (Diverge, _) => ([], Diverge)
  end.
