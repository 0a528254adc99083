(** Model of the fuzz targets, lib/fuzz/fuzz_targets/trace_gzip_1.rs and exec_gzip.rs.

    The encoders (gzip(1), flate2) are not modelled: what they write is a parameter.  Printing does not fail. *)
From Verif Require Import Base M_bit M_lib M_code_tree M_huffman M_parse M_all_refs M_technique M_trace M_example.
Local Open Scope N_scope.
Local Open Scope model_scope.

(** How a run that does not panic ends. *)
Inductive fuzz_end :=
| FEmpty        (* trace_gzip_1.rs:23-26, exec_gzip.rs:23-26 *)
| FStored       (* trace_gzip_1.rs:39, exec_gzip.rs:40: the first block is stored *)
| FSuccess      (* trace_gzip_1.rs:44-47, exec_gzip.rs:45-48 *)
| FDifferent.   (* exec_gzip.rs:51-54 *)

(** trace_gzip_1.rs:29, exec_gzip.rs:51: [&gzip_file[10..gzip_file.len()-8]] *)
Definition gzip_body (gzip_file : list N) : outcome (list N) :=
  if Nat.ltb (List.length gzip_file) 8 then Panic "attempt to subtract with overflow"
  else slice gzip_file 10 (List.length gzip_file - 8).

(** trace_gzip_1.rs:31-40, exec_gzip.rs:32-41: the first block; [None] for a stored one *)
Definition fuzz_codes (compressed : list N) : outcome (option (list Code)) :=
  match fst (bi_next (parse_deflate (mkSource compressed UnexpectedEof))) with
  | Ok (Some (FixedHuffman codes)) => Ok (Some codes)
  | Ok (Some (DynamicHuffman _ codes)) => Ok (Some codes)
  | Ok (Some (Uncompressed _)) => Ok None
  | Ok None => Panic "couldn't deflate"
  | Err _ => Panic "couldn't deflate"
  | Panic m => Panic m
  | Diverge => Diverge
  end.

(** trace_gzip_1.rs:44, exec_gzip.rs:45: [slice.iter().all(|&t| Trace::Correct == t)] *)
Definition every_correct (hints : list Trace) : bool := forallb (Trace_eqb Correct) hints.

(** trace_gzip_1.rs:22-55 *)
Definition fuzz_trace_gzip_1 (data gzip_file : list N) : outcome fuzz_end :=
  match data with
  | [] => Ok FEmpty
  | _ =>
      compressed <-? gzip_body gzip_file ;;
      o <-? fuzz_codes compressed ;;
      match o with
      | None => Ok FStored
      | Some codes =>
          hints <-? try_gzip 1 [] data codes ;;
          if every_correct hints then Ok FSuccess else Panic "explicit panic"
      end
  end.

(** exec_gzip.rs:22-62; [compressed] is what flate2 made of the data *)
Definition fuzz_exec_gzip (data compressed gzip_file : list N) : outcome fuzz_end :=
  match data with
  | [] => Ok FEmpty
  | _ =>
      o <-? fuzz_codes compressed ;;
      match o with
      | None => Ok FStored
      | Some codes =>
          hints <-? try_gzip 1 [] data codes ;;
          if every_correct hints then Ok FSuccess
          else
            body <-? gzip_body gzip_file ;;
            if slice_eqb N.eqb compressed body then Panic "explicit panic" else Ok FDifferent
      end
  end.
