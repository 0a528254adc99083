(** Model of lib/src/trace.rs, serialise_trace.rs and tracer.rs *)
From Verif Require Import Base M_bit M_lib M_all_refs M_technique.
Local Open Scope N_scope.
Local Open Scope model_scope.

(** ** trace.rs *)

(** trace.rs:86-100: the matched prefix of [left] and what is left of the peekable [right]. *)
Fixpoint shared_prefix (left_ right_ : list Code) : list Code * list Code :=
  match left_ with
  | [] => ([], right_)
  | x :: left' =>
      match right_ with
      | val :: right' =>
          if Code_eqb val x
          then let '(m, r) := shared_prefix left' right' in (x :: m, r)
          else ([], right_)
      | [] => ([], right_)
      end
  end.

(** trace.rs:30-33 *)
Definition hint_of (c : Code) : Trace :=
  match c with
  | Literal _ => ActuallyLiteral
  | Reference r => Actually r
  end.

(** trace.rs:14-38: the [while scanner.more_data()] loop; [fuel] bounds the iterations.  Returns
    the hints pushed. *)
Fixpoint trace_loop (fuel : nat) (t : Technique) (s : Scanner) (codes : list Code)
  : outcome (list Trace) :=
  match fuel with
  | O => Diverge
  | S fuel' =>
      if more_data t s then
        guesses <-? sc_codes t s ;;
        match guesses with
        | [] => Panic "assert!(!guesses.is_empty())"
        | _ =>
            let '(matches, codes) := shared_prefix guesses codes in
            let s := fold_left (feedback t) matches s in
            let corrects := map (fun _ => Correct) matches in
            if Nat.eqb (List.length matches) (List.length guesses)
            then more <-? trace_loop fuel' t s codes ;; Ok (corrects ++ more)
            else
              match codes with
              | code :: codes =>
                  more <-? trace_loop fuel' t (feedback t s code) codes ;;
                  Ok (corrects ++ hint_of code :: more)
              | [] => Panic "the guesser guessed more than there actually are?"
              end
        end
      else Ok []
  end.

(** trace.rs:8-41 *)
Definition trace (codes : list Code) (t : Technique) : outcome (list Trace) :=
  trace_loop (S (sc_data_len t)) t (scanner t) codes.

(** trace.rs:53-71: the [for guess in guesses] loop.  Returns the codes pushed, the scanner and
    the hints left. *)
Fixpoint restore_guesses (t : Technique) (guesses : list Code) (s : Scanner) (tr : list Trace)
  : outcome (list Code * Scanner * list Trace) :=
  match guesses with
  | [] => Ok ([], s, tr)
  | guess :: guesses' =>
      match tr with
      | [] => Panic "not out of data"
      | hint :: tr' =>
          orig <-? match hint with
                   | Correct => Ok guess
                   | Actually r => Ok (Reference r)
                   | ActuallyLiteral => b <-? byte_at t (sc_pos s) ;; Ok (Literal b)
                   end ;;
          let s' := feedback t s orig in
          match hint with
          | Correct =>
              r <-? restore_guesses t guesses' s' tr' ;;
              let '(l, s'', tr'') := r in
              Ok (orig :: l, s'', tr'')
          | _ => Ok ([orig], s', tr')
          end
      end
  end.

(** trace.rs:49-72 *)
Fixpoint restore_loop (fuel : nat) (t : Technique) (s : Scanner) (tr : list Trace)
  : outcome (list Code) :=
  match fuel with
  | O => Diverge
  | S fuel' =>
      if more_data t s then
        guesses <-? sc_codes t s ;;
        match guesses with
        | [] => Panic "assert!(!guesses.is_empty())"
        | _ =>
            r <-? restore_guesses t guesses s tr ;;
            let '(l, s, tr) := r in
            more <-? restore_loop fuel' t s tr ;;
            Ok (l ++ more)
        end
      else Ok []
  end.

(** trace.rs:43-75 *)
Definition restore (tr : list Trace) (t : Technique) : outcome (list Code) :=
  restore_loop (S (sc_data_len t)) t (scanner t) tr.

(** trace.rs:77-84 *)
Definition validate (codes : list Code) (t : Technique) : outcome (list Trace) :=
  tr <-? trace codes t ;;
  restored <-? restore tr t ;;
  if slice_eqb Code_eqb codes restored then Ok tr
  else Panic "assert_eq!(codes, restored.as_slice())".

(** ** serialise_trace.rs *)

(** byteorder [write_u16::<LE>] *)
Definition le16 (v : N) : list N := [v mod 256; v / 256].

(** serialise_trace.rs:44-45 *)
Definition representation_offset : N := 32768.
Definition max_representable : N := 65535 - representation_offset.

(** serialise_trace.rs:43: [peeking_take_while(|x| Correct == x).count()] and the rest *)
Fixpoint take_corrects (traces : list Trace) : N * list Trace :=
  match traces with
  | Correct :: traces' => let '(n, r) := take_corrects traces' in (n + 1, r)
  | _ => (0, traces)
  end.

(** serialise_trace.rs:46-50; [fuel] bounds the iterations *)
Fixpoint write_corrects_loop (fuel : nat) (corrects : N) : outcome (list N * N) :=
  match fuel with
  | O => Diverge
  | S fuel' =>
      if max_representable <? corrects
      then r <-? write_corrects_loop fuel' (corrects - max_representable) ;;
           let '(l, c) := r in
           Ok (le16 (representation_offset + max_representable) ++ l, c)
      else Ok ([], corrects)
  end.

(** serialise_trace.rs:43-57 *)
Definition write_corrects (corrects : N) : outcome (list N) :=
  r <-? write_corrects_loop (S (N.to_nat (corrects / max_representable))) corrects ;;
  let '(l, c) := r in
  if c =? 0 then Panic "assert_ne!(0, corrects)"
  else if 65535 <? c then Panic "max < u16::MAX"
  else if 65535 <? representation_offset + c then Panic "attempt to add with overflow"
  else Ok (l ++ le16 (representation_offset + c)).

(** serialise_trace.rs:31-60; each iteration consumes at least one hint *)
Fixpoint write_loop (fuel : nat) (traces : list Trace) : outcome (list N) :=
  match fuel with
  | O => Diverge
  | S fuel' =>
      match traces with
      | [] => Ok []
      | ActuallyLiteral :: traces' =>
          more <-? write_loop fuel' traces' ;; Ok (le16 0 ++ more)
      | Actually r :: traces' =>
          more <-? write_loop fuel' traces' ;;
          Ok (le16 (r_dist r) ++ [(r_run r - 3) mod 256] ++ more)
      | Correct :: _ =>
          let '(corrects, traces') := take_corrects traces in
          l <-? write_corrects corrects ;;
          more <-? write_loop fuel' traces' ;;
          Ok (l ++ more)
      end
  end.

(** serialise_trace.rs:27-63 *)
Definition st_write (traces : list Trace) : outcome (list N) :=
  write_loop (S (List.length traces)) traces.

(** serialise_trace.rs:68-87; each iteration consumes at least two bytes.  [read_u16] is a
    two-byte [read_exact]: an end of file in the middle of it also ends the loop. *)
Fixpoint read_loop (fuel : nat) : M source (list Trace) :=
  match fuel with
  | O => lift Diverge
  | S fuel' =>
      fun s =>
        match read_exact 2 s with
        | (Ok buf, s) =>
            let first := nth 0 buf 0 + 256 * nth 1 buf 0 in
            (if 0 =? first then
               more <- read_loop fuel' ;; ret (ActuallyLiteral :: more)
             else if first <=? 32768 then
               b <- read_exact 1 ;;
               r <- lift (Ref_new first (nth 0 b 0 + 3)) ;;
               more <- read_loop fuel' ;; ret (Actually r :: more)
             else
               let count := first - 32768 in
               more <- read_loop fuel' ;;
               ret (repeat Correct (N.to_nat count) ++ more)) s
        | (Err (EIo UnexpectedEof), s) => (Ok [], s)
        | (Err e, s) => (Err e, s)
        | (Panic m, s) => (Panic m, s)
        | (Diverge, s) => (Diverge, s)
        end
  end.

(** serialise_trace.rs:65-90 *)
Definition st_read : M source (list Trace) := fun s => read_loop (S (List.length (rest s))) s.

(** serialise_trace.rs:16-25 *)
Definition st_verify (traces : list Trace) : outcome (list N) :=
  data <-? st_write traces ;;
  match fst (st_read (mkSource data UnexpectedEof)) with
  | Ok back => if slice_eqb Trace_eqb traces back then Ok data else Panic "assert_eq!(traces, read(data))"
  | Err _ => Panic "called `Result::unwrap()` on an `Err` value"
  | Panic m => Panic m
  | Diverge => Diverge
  end.

(** ** tracer.rs *)

(** tracer.rs:15-26 *)
Definition tracer_try (config : Config) (preroll data : list N) (codes : list Code)
  : outcome (list Trace) :=
  let limit := match insert_only_below_length (cfg_wams config) with
               | Some l => l
               | None => 65535
               end in
  all_refs <-? with_sixteen preroll data limit ;;
  traces <-? validate codes (mkTechnique config all_refs) ;;
  _ <-? st_verify traces ;;
  Ok traces.

(** tracer.rs:11-13 *)
Definition try_gzip (level : N) (preroll data : list N) (codes : list Code) : outcome (list Trace) :=
  config <-? Config_gzip level ;;
  tracer_try config preroll data codes.
