(** The searching and tracing code again, with every operation on Rust's machine integers made explicit, in a build with
    overflow checks and in a release build, as in M_arith.v.  Positions are [usize], runs and distances [u16].
    Comparisons, [as] casts, conversions, divisions and ranges cannot overflow and are as in the model proper. *)
From Verif Require Import Base M_bit M_lib M_all_refs M_technique M_trace M_arith.
Local Open Scope N_scope.
Local Open Scope model_scope.

Section Build.
  Context (bd : build).

  (** Arithmetic on positions *)
  Definition addp (a b : nat) : outcome nat := r <-? add bd usize (N.of_nat a) (N.of_nat b) ;; Ok (N.to_nat r).
  Definition subp (a b : nat) : outcome nat := r <-? sub bd usize (N.of_nat a) (N.of_nat b) ;; Ok (N.to_nat r).

  (** [Iterator::filter] with a closure that may panic; as in the model proper the closure runs on every element *)
  Fixpoint mc_filter {A} (f : A -> outcome bool) (l : list A) : outcome (list A) :=
    match l with
    | [] => Ok []
    | x :: l' => keep <-? f x ;; r <-? mc_filter f l' ;; Ok (if (keep : bool) then x :: r else r)
    end.

  (** lib.rs:111-116 *)
  Definition mc_emitted_bytes (c : Code) : outcome N :=
    match c with
    | Literal _ => Ok 1
    | Reference r => mc_run bd r
    end.

  (** ** obscure.rs *)

  (** obscure.rs:21-31 *)
  Fixpoint mc_contains (haystack : list Obscure) (needle : nat) : outcome bool :=
    match haystack with
    | [] => Ok false
    | (start, len) :: haystack' =>
        hit <-? (if Nat.ltb start needle
                 then e <-? addp start (N.to_nat len) ;; Ok (Nat.ltb needle e)
                 else Ok false) ;;
        if (hit : bool) then Ok true else mc_contains haystack' needle
    end.

  (** obscure.rs:7-19 *)
  Definition mc_obscure (from : list nat) (by_ : list Obscure) : outcome (list nat) :=
    mc_filter (fun item => c <-? mc_contains by_ item ;; Ok (negb c)) from.

  (** ** back_map.rs, all_refs.rs *)

  (** all_refs.rs:145-156 *)
  Definition mc_sixteen_hash_16 (k : Key) : outcome N :=
    let hash := N.lxor 0 (k0 k) in
    hash <-? shl bd u16 hash 5 ;;
    let hash := N.lxor hash (k1 k) in
    hash <-? shl bd u16 hash 5 ;;
    let hash := N.lxor hash (k2 k) in
    Ok (N.land hash 32767).

  (** back_map.rs:25-37, from position [pos] *)
  Fixpoint mc_from_window_loop (pos : nat) (keys : list Key) (table : BackMap) : outcome BackMap :=
    match keys with
    | [] => Ok table
    | key :: keys' =>
        hash <-? mc_sixteen_hash_16 key ;;
        prev_pos <-? hash_get (hash_to_pos table) hash ;;
        ptp <-? set_idx (pos_to_pos table) pos prev_pos ;;
        mc_from_window_loop (S pos) keys' (mkBackMap (hash_set (hash_to_pos table) hash pos) ptp)
    end.

  (** back_map.rs:19-40 *)
  Definition mc_from_window (preroll data : list N) : outcome BackMap :=
    len <-? addp (List.length preroll) (List.length data) ;;
    mc_from_window_loop 0 (windows3 (preroll ++ data)) (mkBackMap (fun _ => 0%nat) (repeat 0%nat len)).

  (** back_map.rs:42-49 *)
  Definition mc_bm_get (m : BackMap) (key : Key) : outcome (list nat) :=
    hash <-? mc_sixteen_hash_16 key ;;
    pos <-? hash_get (hash_to_pos m) hash ;;
    chain_from (S (List.length (pos_to_pos m))) (pos_to_pos m) pos.

  (** all_refs.rs:25-32 *)
  Definition mc_with_sixteen (preroll data : list N) (limit : N) : outcome AllRefs :=
    m <-? mc_from_window preroll data ;;
    Ok (mkAllRefs preroll data m limit).

  (** all_refs.rs:34-36 *)
  Definition mc_data_len (a : AllRefs) : outcome nat := addp (List.length (ar_preroll a)) (List.length (ar_data a)).

  (** all_refs.rs:87-93 *)
  Definition mc_ar_get (a : AllRefs) (pos : nat) : outcome N :=
    if Nat.ltb pos (List.length (ar_preroll a))
    then get_idx (ar_preroll a) pos
    else p <-? subp pos (List.length (ar_preroll a)) ;; get_idx (ar_data a) p.

  (** all_refs.rs:38-48 *)
  Definition mc_key (a : AllRefs) (data_pos : nat) : outcome (option Key) :=
    p2 <-? addp data_pos 2 ;;
    len <-? mc_data_len a ;;
    if Nat.ltb p2 len
    then b0 <-? mc_ar_get a data_pos ;;
         p1 <-? addp data_pos 1 ;;
         b1 <-? mc_ar_get a p1 ;;
         p2 <-? addp data_pos 2 ;;
         b2 <-? mc_ar_get a p2 ;;
         Ok (Some (mkKey b0 b1 b2))
    else Ok None.

  (** all_refs.rs:95-97 *)
  Definition mc_get_at_dist (a : AllRefs) (data_pos : nat) (dist : N) : outcome N :=
    p <-? subp data_pos (N.to_nat dist) ;; mc_ar_get a p.

  (** all_refs.rs:102-104 *)
  Fixpoint mc_upcoming (a : AllRefs) (pos : nat) (is : list nat) : outcome (list N) :=
    match is with
    | [] => Ok []
    | i :: is' => p <-? addp pos i ;; x <-? mc_ar_get a p ;; l <-? mc_upcoming a pos is' ;; Ok (x :: l)
    end.

  (** all_refs.rs:99-123; a remainder by zero panics in both builds *)
  Definition mc_possible_run_length_at (a : AllRefs) (pos : nat) (dist : N) : outcome N :=
    len <-? mc_data_len a ;;
    left <-? subp len pos ;;
    let upcoming_data_len := Nat.min 258 left in
    upcoming_data <-? mc_upcoming a pos (seq 0 upcoming_data_len) ;;
    let d := N.to_nat dist in
    m1 <-? first_mismatch (range 3 (Nat.min d upcoming_data_len))
             (fun cur => x <-? get_idx upcoming_data cur ;;
                         back <-? sub bd u16 dist (N.of_nat cur) ;;
                         y <-? mc_get_at_dist a pos back ;;
                         Ok (negb (x =? y))) ;;
    match m1 with
    | Some cur => Ok (N.of_nat cur)
    | None =>
        m2 <-? first_mismatch (range d upcoming_data_len)
                 (fun cur =>
                    if Nat.eqb d 0
                    then Panic "attempt to calculate the remainder with a divisor of zero"
                    else neqb_o (get_idx upcoming_data (cur mod d)) (get_idx upcoming_data cur)) ;;
        match m2 with
        | Some cur => Ok (N.of_nat cur)
        | None => Ok (N.of_nat upcoming_data_len)
        end
    end.

  (** all_refs.rs:74-78 *)
  Definition mc_same_key (a : AllRefs) (key : Key) (off : nat) : outcome bool :=
    b0 <-? mc_ar_get a off ;;
    if b0 =? k0 key
    then p1 <-? addp off 1 ;;
         b1 <-? mc_ar_get a p1 ;;
         if b1 =? k1 key
         then p2 <-? addp off 2 ;; b2 <-? mc_ar_get a p2 ;; Ok (b2 =? k2 key)
         else Ok false
    else Ok false.

  (** all_refs.rs:79-83 *)
  Fixpoint mc_map_refs (a : AllRefs) (pos : nat) (offs : list nat) : outcome (list Ref) :=
    match offs with
    | [] => Ok []
    | off :: offs' =>
        d <-? subp pos off ;;
        let dist := N.of_nat d in
        if 65535 <? dist then Panic "logically sound"
        else
          run <-? mc_possible_run_length_at a pos dist ;;
          r <-? mc_Ref_new bd dist run ;;
          l <-? mc_map_refs a pos offs' ;;
          Ok (r :: l)
    end.

  (** all_refs.rs:51-85; as in the model proper, the list of everything the iterator can yield *)
  Definition mc_at (a : AllRefs) (pos : nat) (obscura : list Obscure) : outcome (option (list Ref)) :=
    k <-? mc_key a pos ;;
    match k with
    | None => Ok None
    | Some key =>
        if Nat.eqb 0 pos then Ok (Some [])
        else
          chain <-? mc_bm_get (ar_map a) key ;;
          offs <-? mc_obscure (filter (fun off => Nat.ltb off pos) chain) obscura ;;
          let offs := firstn (N.to_nat (ar_limit a)) offs in
          offs <-? mc_filter (fun off => d <-? subp pos off ;; Ok (N.of_nat d <=? 32768)) offs ;;
          offs <-? mc_filter (mc_same_key a key) offs ;;
          refs <-? mc_map_refs a pos offs ;;
          Ok (Some refs)
    end.

  (** ** iters.rs, picker.rs *)

  (** iters.rs:20-30, with [func] the run length (picker.rs:20) *)
  Fixpoint mc_capped_max_loop (cap : N) (max : Ref) (max_score : N) (it : list Ref) : outcome Ref :=
    match it with
    | [] => Ok max
    | candidate :: it' =>
        candidate_score <-? mc_run bd candidate ;;
        if max_score <? candidate_score
        then if cap <=? candidate_score then Ok candidate
             else mc_capped_max_loop cap candidate candidate_score it'
        else mc_capped_max_loop cap max max_score it'
    end.

  (** iters.rs:1-33, picker.rs:19-21 *)
  Definition mc_longest (candidates : list Ref) (cap : N) : outcome (option Ref) :=
    match candidates with
    | [] => Ok None
    | max :: it' =>
        max_score <-? mc_run bd max ;;
        if cap <=? max_score then Ok (Some max)
        else m <-? mc_capped_max_loop cap max max_score it' ;; Ok (Some m)
    end.

  (** [Option::filter] *)
  Definition mc_option_filter (f : Ref -> outcome bool) (o : option Ref) : outcome (option Ref) :=
    match o with
    | Some r => keep <-? f r ;; Ok (if (keep : bool) then Some r else None)
    | None => Ok None
    end.

  (** picker.rs:11-25 *)
  Definition mc_picker (p : Picker) (candidates : list Ref) (cap : N) : outcome (option Ref) :=
    match p with
    | Longest => mc_longest candidates cap
    | DropFarThrees =>
        o <-? mc_longest candidates cap ;;
        mc_option_filter (fun r => run <-? mc_run bd r ;; Ok ((3 <? run) || (r_dist r <=? 4096))) o
    end.

  (** ** technique.rs *)

  (** technique.rs:30-45 *)
  Definition mc_Config_gzip (level : N) : outcome Config :=
    if (1 <=? level) && (level <=? 9)
    then i <-? sub bd u8 level 1 ;;
         w <-? get_idx CONFIGURATIONS (N.to_nat i) ;;
         Ok (mkConfig true LGreedy (if 4 <=? level then DropFarThrees else Longest) w)
    else Panic "gzip levels are between 1 and 9, inclusive".

  (** technique.rs:90-92 *)
  Definition mc_more_data (t : Technique) (s : Scanner) : outcome bool :=
    len <-? mc_data_len (t_refs t) ;; Ok (Nat.ltb (sc_pos s) len).

  (** technique.rs:94-113 *)
  Definition mc_feedback (t : Technique) (s : Scanner) (code : Code) : outcome Scanner :=
    let old_pos := sc_pos s in
    n <-? mc_emitted_bytes code ;;
    pos <-? addp (sc_pos s) (N.to_nat n) ;;
    match insert_only_below_length (cfg_wams (t_config t)) with
    | None => Ok (mkScanner (sc_obscured s) pos)
    | Some limit =>
        match code with
        | Literal _ => Ok (mkScanner (sc_obscured s) pos)
        | Reference r =>
            run <-? mc_run bd r ;;
            if run <=? limit then Ok (mkScanner (sc_obscured s) pos)
            else run <-? mc_run bd r ;; Ok (mkScanner (sc_obscured s ++ [(old_pos, run)]) pos)
        end
    end.

  (** technique.rs:123-149 *)
  Definition mc_better_than (t : Technique) (obscured : list Obscure) (pos : nat) (other : option N)
    : outcome (N * option Ref) :=
    current_literal <-? mc_ar_get (t_refs t) pos ;;
    match search_limit (cfg_wams (t_config t)) other with
    | None => Ok (current_literal, None)
    | Some limit =>
        candidates <-? mc_at (t_refs t) pos obscured ;;
        match candidates with
        | None => Ok (current_literal, None)
        | Some it =>
            best <-? mc_picker (cfg_picker (t_config t)) (firstn limit it)
                       (quit_search_above_length (cfg_wams (t_config t))) ;;
            Ok (current_literal, best)
        end
    end.

  (** ** lookahead.rs *)

  (** lookahead.rs:22-27 *)
  Definition mc_greedy (t : Technique) (ob : list Obscure) (pos : nat) : outcome (list Code) :=
    c <-? mc_better_than t ob pos None ;;
    Ok [match c with
        | (_, Some r) => Reference r
        | (b, None) => Literal b
        end].

  (** lookahead.rs:37-50 *)
  Fixpoint mc_gzip_loop (fuel : nat) (t : Technique) (ob : list Obscure) (pos : nat)
           (curr_lit : N) (curr_ref : Ref) : outcome (list Code) :=
    match fuel with
    | O => Diverge
    | S fuel' =>
        pos <-? addp pos 1 ;;
        run <-? mc_run bd curr_ref ;;
        c <-? mc_better_than t ob pos (Some run) ;;
        match c with
        | (b, Some new) =>
            new_run <-? mc_run bd new ;;
            curr_run <-? mc_run bd curr_ref ;;
            if curr_run <? new_run
            then more <-? mc_gzip_loop fuel' t ob pos b new ;; Ok (Literal curr_lit :: more)
            else Ok [Reference curr_ref]
        | (_, None) => Ok [Reference curr_ref]
        end
    end.

  (** lookahead.rs:29-53 *)
  Definition mc_gzip (t : Technique) (ob : list Obscure) (pos : nat) : outcome (list Code) :=
    c <-? mc_better_than t ob pos None ;;
    match c with
    | (lit, Some start) => mc_gzip_loop 300 t ob pos lit start
    | (b, None) => Ok [Literal b]
    end.

  (** lookahead.rs:55-101 *)
  Definition mc_three_zip (t : Technique) (ob : list Obscure) (pos : nat) : outcome (list Code) :=
    c <-? mc_better_than t ob pos None ;;
    match c with
    | (b, None) => Ok [Literal b]
    | (first_literal, Some first_best) =>
        run <-? mc_run bd first_best ;;
        if 3 <? run then Ok [Reference first_best]
        else if negb (3 =? run) then Panic "assert_eq!(3, first_best.run())"
        else
          p1 <-? addp pos 1 ;;
          c2 <-? mc_better_than t ob p1 None ;;
          let '(second_literal, second_best) := c2 in
          second_best <-? mc_option_filter (fun x => n <-? mc_run bd x ;; Ok (3 <? n)) second_best ;;
          let go_on (_ : unit) :=
            p2 <-? addp pos 2 ;;
            c3 <-? mc_better_than t ob p2 None ;;
            let '(_, third_best) := c3 in
            third_best <-? mc_option_filter (fun x => n <-? mc_run bd x ;; Ok (4 <? n)) third_best ;;
            let third_result third_run :=
              [Literal first_literal; Literal second_literal; Reference third_run] in
            match second_best with
            | Some second_run =>
                match third_best with
                | Some third_run =>
                    n3 <-? mc_run bd third_run ;;
                    n2 <-? mc_run bd second_run ;;
                    if n2 <? n3 then Ok (third_result third_run)
                    else Ok [Literal first_literal; Reference second_run]
                | None => Ok [Literal first_literal; Reference second_run]
                end
            | None =>
                match third_best with
                | Some third_run => Ok (third_result third_run)
                | None => Ok [Reference first_best]
                end
            end in
          match second_best with
          | Some r => n <-? mc_run bd r ;;
                      if n =? 258 then Ok [Literal first_literal; Reference r] else go_on tt
          | None => go_on tt
          end
    end.

  (** lookahead.rs:13-19, technique.rs:153-155 *)
  Definition mc_sc_codes (t : Technique) (s : Scanner) : outcome (list Code) :=
    match cfg_lookahead (t_config t) with
    | LGreedy => mc_greedy t (sc_obscured s) (sc_pos s)
    | LGzip => mc_gzip t (sc_obscured s) (sc_pos s)
    | LThreeZip => mc_three_zip t (sc_obscured s) (sc_pos s)
    end.

  (** ** trace.rs *)

  (** trace.rs:19-22: the scanner after the matched codes *)
  Fixpoint mc_feedbacks (t : Technique) (matches : list Code) (s : Scanner) : outcome Scanner :=
    match matches with
    | [] => Ok s
    | c :: matches' => s' <-? mc_feedback t s c ;; mc_feedbacks t matches' s'
    end.

  (** trace.rs:14-38 *)
  Fixpoint mc_trace_loop (fuel : nat) (t : Technique) (s : Scanner) (codes : list Code) : outcome (list Trace) :=
    match fuel with
    | O => Diverge
    | S fuel' =>
        more <-? mc_more_data t s ;;
        if (more : bool) then
          guesses <-? mc_sc_codes t s ;;
          match guesses with
          | [] => Panic "assert!(!guesses.is_empty())"
          | _ =>
              let '(matches, codes) := shared_prefix guesses codes in
              s <-? mc_feedbacks t matches s ;;
              let corrects := map (fun _ => Correct) matches in
              if Nat.eqb (List.length matches) (List.length guesses)
              then more <-? mc_trace_loop fuel' t s codes ;; Ok (corrects ++ more)
              else
                match codes with
                | code :: codes =>
                    s <-? mc_feedback t s code ;;
                    more <-? mc_trace_loop fuel' t s codes ;;
                    Ok (corrects ++ hint_of code :: more)
                | [] => Panic "the guesser guessed more than there actually are?"
                end
          end
        else Ok []
    end.

  (** trace.rs:8-41 *)
  Definition mc_trace (codes : list Code) (t : Technique) : outcome (list Trace) :=
    mc_trace_loop (S (sc_data_len t)) t (scanner t) codes.

  (** trace.rs:53-71 *)
  Fixpoint mc_restore_guesses (t : Technique) (guesses : list Code) (s : Scanner) (tr : list Trace)
    : outcome (list Code * Scanner * list Trace) :=
    match guesses with
    | [] => Ok ([], s, tr)
    | guess :: guesses' =>
        match tr with
        | [] => Panic "not out of data"
        | hint :: tr' =>
            orig <-? match hint with
                     | Correct => Ok guess
                     | Actually r => Ok (Reference r)
                     | ActuallyLiteral => b <-? byte_at t (sc_pos s) ;; Ok (Literal b)
                     end ;;
            s' <-? mc_feedback t s orig ;;
            match hint with
            | Correct =>
                r <-? mc_restore_guesses t guesses' s' tr' ;;
                let '(l, s'', tr'') := r in
                Ok (orig :: l, s'', tr'')
            | _ => Ok ([orig], s', tr')
            end
        end
    end.

  (** trace.rs:49-72 *)
  Fixpoint mc_restore_loop (fuel : nat) (t : Technique) (s : Scanner) (tr : list Trace) : outcome (list Code) :=
    match fuel with
    | O => Diverge
    | S fuel' =>
        more <-? mc_more_data t s ;;
        if (more : bool) then
          guesses <-? mc_sc_codes t s ;;
          match guesses with
          | [] => Panic "assert!(!guesses.is_empty())"
          | _ =>
              r <-? mc_restore_guesses t guesses s tr ;;
              let '(l, s, tr) := r in
              more <-? mc_restore_loop fuel' t s tr ;;
              Ok (l ++ more)
          end
        else Ok []
    end.

  (** trace.rs:43-75 *)
  Definition mc_restore (tr : list Trace) (t : Technique) : outcome (list Code) :=
    mc_restore_loop (S (sc_data_len t)) t (scanner t) tr.

  (** trace.rs:77-84 *)
  Definition mc_validate (codes : list Code) (t : Technique) : outcome (list Trace) :=
    tr <-? mc_trace codes t ;;
    restored <-? mc_restore tr t ;;
    if slice_eqb Code_eqb codes restored then Ok tr
    else Panic "assert_eq!(codes, restored.as_slice())".

  (** ** serialise_trace.rs *)

  (** serialise_trace.rs:46-50 *)
  Fixpoint mc_write_corrects_loop (fuel : nat) (max corrects : N) : outcome (list N * N) :=
    match fuel with
    | O => Diverge
    | S fuel' =>
        if max <? corrects
        then v <-? add bd u16 representation_offset max ;;
             corrects <-? sub bd usize corrects max ;;
             r <-? mc_write_corrects_loop fuel' max corrects ;;
             let '(l, c) := r in
             Ok (le16 v ++ l, c)
        else Ok ([], corrects)
    end.

  (** serialise_trace.rs:43-57 *)
  Definition mc_write_corrects (corrects : N) : outcome (list N) :=
    max <-? sub bd u16 65535 representation_offset ;;
    r <-? mc_write_corrects_loop (S (N.to_nat (corrects / max_representable))) max corrects ;;
    let '(l, c) := r in
    if c =? 0 then Panic "assert_ne!(0, corrects)"
    else if 65535 <? c then Panic "max < u16::MAX"
    else v <-? add bd u16 representation_offset c ;;
         Ok (l ++ le16 v).

  (** serialise_trace.rs:31-60 *)
  Fixpoint mc_write_loop (fuel : nat) (traces : list Trace) : outcome (list N) :=
    match fuel with
    | O => Diverge
    | S fuel' =>
        match traces with
        | [] => Ok []
        | ActuallyLiteral :: traces' =>
            more <-? mc_write_loop fuel' traces' ;; Ok (le16 0 ++ more)
        | Actually r :: traces' =>
            run <-? mc_run bd r ;;
            b <-? sub bd u16 run 3 ;;
            more <-? mc_write_loop fuel' traces' ;;
            Ok (le16 (r_dist r) ++ [b mod 256] ++ more)
        | Correct :: _ =>
            let '(corrects, traces') := take_corrects traces in
            l <-? mc_write_corrects corrects ;;
            more <-? mc_write_loop fuel' traces' ;;
            Ok (l ++ more)
        end
    end.

  (** serialise_trace.rs:27-63 *)
  Definition mc_st_write (traces : list Trace) : outcome (list N) :=
    mc_write_loop (S (List.length traces)) traces.

  (** serialise_trace.rs:68-87 *)
  Fixpoint mc_read_loop (fuel : nat) : M source (list Trace) :=
    match fuel with
    | O => lift Diverge
    | S fuel' =>
        fun s =>
          match read_exact 2 s with
          | (Ok buf, s) =>
              let first := nth 0 buf 0 + 256 * nth 1 buf 0 in
              (if 0 =? first then
                 more <- mc_read_loop fuel' ;; ret (ActuallyLiteral :: more)
               else if first <=? 32768 then
                 b <- read_exact 1 ;;
                 run <- lift (add bd u16 (nth 0 b 0) 3) ;;
                 r <- lift (mc_Ref_new bd first run) ;;
                 more <- mc_read_loop fuel' ;; ret (Actually r :: more)
               else
                 count <- lift (sub bd u16 first 32768) ;;
                 more <- mc_read_loop fuel' ;;
                 ret (repeat Correct (N.to_nat count) ++ more)) s
          | (Err (EIo UnexpectedEof), s) => (Ok [], s)
          | (Err e, s) => (Err e, s)
          | (Panic m, s) => (Panic m, s)
          | (Diverge, s) => (Diverge, s)
          end
    end.

  (** serialise_trace.rs:65-90 *)
  Definition mc_st_read : M source (list Trace) := fun s => mc_read_loop (S (List.length (rest s))) s.

  (** serialise_trace.rs:16-25 *)
  Definition mc_st_verify (traces : list Trace) : outcome (list N) :=
    data <-? mc_st_write traces ;;
    match fst (mc_st_read (mkSource data UnexpectedEof)) with
    | Ok back => if slice_eqb Trace_eqb traces back then Ok data else Panic "assert_eq!(traces, read(data))"
    | Err _ => Panic "called `Result::unwrap()` on an `Err` value"
    | Panic m => Panic m
    | Diverge => Diverge
    end.

  (** ** tracer.rs *)

  (** tracer.rs:15-26 *)
  Definition mc_tracer_try (config : Config) (preroll data : list N) (codes : list Code) : outcome (list Trace) :=
    let limit := match insert_only_below_length (cfg_wams config) with
                 | Some l => l
                 | None => 65535
                 end in
    all_refs <-? mc_with_sixteen preroll data limit ;;
    traces <-? mc_validate codes (mkTechnique config all_refs) ;;
    _ <-? mc_st_verify traces ;;
    Ok traces.

  (** tracer.rs:11-13 *)
  Definition mc_try_gzip (level : N) (preroll data : list N) (codes : list Code) : outcome (list Trace) :=
    config <-? mc_Config_gzip level ;;
    mc_tracer_try config preroll data codes.
End Build.
