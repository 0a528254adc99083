(** Model of lib/tests/tracing_size.rs: the check the regression tests run on a compressed file. *)
From Verif Require Import Base M_bit M_lib M_code_tree M_huffman M_circles M_gzip M_parse M_serialise M_all_refs M_technique M_trace M_fuzz.
Local Open Scope N_scope.
Local Open Scope model_scope.

(** [Result::unwrap]; simplified: the error is not part of the message *)
Definition result_unwrap {A} (o : outcome A) : outcome A :=
  match o with
  | Err _ => Panic "called `Result::unwrap()` on an `Err` value"
  | o => o
  end.

(** tracing_size.rs:19-30; [fuel] bounds the number of blocks *)
Fixpoint harness_loop (fuel : nat) (level : N) (it : block_iter) (dictionary : circ) (parts : list (list Trace))
  : outcome (list (list Trace)) :=
  match fuel with
  | O => Diverge
  | S fuel' =>
      let '(o, it') := bi_next it in
      next <-? result_unwrap o ;;
      match next with
      | None => Ok parts
      | Some block =>
          codes <-? match block with
                    | Uncompressed _ => Panic "not implemented"
                    | DynamicHuffman _ codes => Ok codes
                    | FixedHuffman codes => Ok codes
                    end ;;
          preroll <-? cb_vec true dictionary ;;
          let '(r, (dictionary', data)) := decompressed_codes codes (dictionary, new_sink) in
          _ <-? result_unwrap r ;;
          part <-? try_gzip level preroll (written data) codes ;;
          harness_loop fuel' level it' dictionary' (parts ++ [part])
      end
  end.

(** tracing_size.rs:12-33 *)
Definition harness_run_gzip (level : N) (file : list N) : outcome (list (list Trace)) :=
  let '(o, reader) := discard_header (mkSource file UnexpectedEof) in
  _ <-? result_unwrap o ;;
  dictionary <-? cb_new ;;
  harness_loop (8 * List.length (rest reader) + 2) level (parse_deflate reader) dictionary [].

(** tracing_size.rs:35-46; simplified: the message does not say which part, nor what its hints are *)
Definition harness_try_gzip (level : N) (file : list N) : outcome unit :=
  parts <-? harness_run_gzip level file ;;
  if forallb every_correct parts then Ok tt else Panic "must be fully complete".
