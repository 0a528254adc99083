(** Model of lib/src/iters.rs, picker.rs, wams.rs, technique.rs and lookahead.rs *)
From Verif Require Import Base M_bit M_lib M_all_refs.
Local Open Scope N_scope.
Local Open Scope model_scope.

(** ** iters.rs *)

Section CappedMax.
  Context {T : Type} (func : T -> N) (cap : N).

  (** iters.rs:20-30 *)
  Fixpoint capped_max_loop (max : T) (max_score : N) (it : list T) : T :=
    match it with
    | [] => max
    | candidate :: it' =>
        let candidate_score := func candidate in
        if max_score <? candidate_score
        then if cap <=? candidate_score then candidate
             else capped_max_loop candidate candidate_score it'
        else capped_max_loop max max_score it'
    end.

  (** iters.rs:1-33 *)
  Definition capped_max_by (it : list T) : option T :=
    match it with
    | [] => None
    | max :: it' =>
        let max_score := func max in
        if cap <=? max_score then Some max
        else Some (capped_max_loop max max_score it')
    end.
End CappedMax.

(** ** picker.rs *)

(** picker.rs:5-8 *)
Inductive Picker := Longest | DropFarThrees.

(** picker.rs:19-21 *)
Definition longest (candidates : list Ref) (cap : N) : option Ref :=
  capped_max_by r_run cap candidates.

Definition option_filter {A} (f : A -> bool) (o : option A) : option A :=
  match o with
  | Some a => if f a then Some a else None
  | None => None
  end.

(** picker.rs:23-25 *)
Definition drop_far_threes (candidates : list Ref) (cap : N) : option Ref :=
  option_filter (fun r => (3 <? r_run r) || (r_dist r <=? 4096)) (longest candidates cap).

(** picker.rs:11-16 *)
Definition picker (p : Picker) (candidates : list Ref) (cap : N) : option Ref :=
  match p with
  | Longest => longest candidates cap
  | DropFarThrees => drop_far_threes candidates cap
  end.

(** ** wams.rs *)

(** wams.rs:17-23 *)
Record LookaheadConfig := mkLookaheadConfig {
  apathetic_above_length : N; abort_above_length : N }.

(** wams.rs:2-14; [limit_count_of_distances] is a [usize] *)
Record WamsOptimisations := mkWams {
  quit_search_above_length : N;
  limit_count_of_distances : nat;
  insert_only_below_length : option N;
  wams_lookahead : option LookaheadConfig }.

(** wams.rs:37-48 *)
Definition wams_greedy (quit : N) (limit : nat) (insert : N) : WamsOptimisations :=
  mkWams quit limit (Some insert) None.

(** wams.rs:50-65 *)
Definition wams_lookahead_ (quit : N) (limit : nat) (apathetic abort : N) : WamsOptimisations :=
  mkWams quit limit None (Some (mkLookaheadConfig apathetic abort)).

(** wams.rs:25-35 *)
Definition CONFIGURATIONS : list WamsOptimisations := [
  wams_greedy 8 4 4;
  wams_greedy 16 8 5;
  wams_greedy 32 32 6;
  wams_lookahead_ 16 16 4 4;
  wams_lookahead_ 32 32 8 16;
  wams_lookahead_ 128 128 8 16;
  wams_lookahead_ 128 256 8 32;
  wams_lookahead_ 258 (N.to_nat 1024) 32 128;
  wams_lookahead_ 258 (N.to_nat 4096) 32 258].

(** ** technique.rs *)

(** lookahead.rs:6-10 *)
Inductive Lookahead := LGreedy | LGzip | LThreeZip.

(** technique.rs:16-21 *)
Record Config := mkConfig {
  first_byte_bug : bool; cfg_lookahead : Lookahead; cfg_picker : Picker; cfg_wams : WamsOptimisations }.

(** technique.rs:30-45; [level] is a [u8] *)
Definition Config_gzip (level : N) : outcome Config :=
  if (1 <=? level) && (level <=? 9)
  then w <-? get_idx CONFIGURATIONS (N.to_nat (level - 1)) ;;
       Ok (mkConfig true LGreedy (if 4 <=? level then DropFarThrees else Longest) w)
  else Panic "gzip levels are between 1 and 9, inclusive".

(** technique.rs:47-49 *)
Definition Config_gzip_16_default : outcome Config := Config_gzip 6.

(** technique.rs:51-58 *)
Definition Config_spicy : outcome Config :=
  w <-? get_idx CONFIGURATIONS 8 ;;
  Ok (mkConfig false LThreeZip DropFarThrees w).

(** technique.rs:24-27 *)
Record Technique := mkTechnique { t_config : Config; t_refs : AllRefs }.

(** technique.rs:66-68: indexes [data], not preroll and data *)
Definition byte_at (t : Technique) (pos : nat) : outcome N := get_idx (ar_data (t_refs t)) pos.

(** technique.rs:82-87 *)
Record Scanner := mkScanner { sc_obscured : list Obscure; sc_pos : nat }.

(** technique.rs:72-78 *)
Definition scanner (t : Technique) : Scanner := mkScanner [] (List.length (ar_preroll (t_refs t))).

(** technique.rs:116-120 *)
Definition sc_data_len (t : Technique) : nat := ar_data_len (t_refs t).

(** technique.rs:90-92 *)
Definition more_data (t : Technique) (s : Scanner) : bool := Nat.ltb (sc_pos s) (sc_data_len t).

(** technique.rs:94-113 *)
Definition feedback (t : Technique) (s : Scanner) (code : Code) : Scanner :=
  let old_pos := sc_pos s in
  let pos := (sc_pos s + N.to_nat (emitted_bytes code))%nat in
  match insert_only_below_length (cfg_wams (t_config t)) with
  | None => mkScanner (sc_obscured s) pos
  | Some limit =>
      match code with
      | Literal _ => mkScanner (sc_obscured s) pos
      | Reference r =>
          if r_run r <=? limit then mkScanner (sc_obscured s) pos
          else mkScanner (sc_obscured s ++ [(old_pos, r_run r)]) pos
      end
  end.

(** technique.rs:127-137: the early return ([None]) or the limit to use *)
Definition search_limit (w : WamsOptimisations) (other : option N) : option nat :=
  match other with
  | None => Some (limit_count_of_distances w)
  | Some run =>
      match wams_lookahead w with
      | None => Some (limit_count_of_distances w)
      | Some la =>
          if run <? abort_above_length la then None
          else if apathetic_above_length la <? run
               then Some (limit_count_of_distances w / 4)%nat
               else Some (limit_count_of_distances w)
      end
  end.

(** technique.rs:123-149 *)
Definition best_candidate_better_than (t : Technique) (obscured : list Obscure)
           (pos : nat) (other : option N) : outcome (N * option Ref) :=
  current_literal <-? ar_get (t_refs t) pos ;;
  match search_limit (cfg_wams (t_config t)) other with
  | None => Ok (current_literal, None)
  | Some limit =>
      candidates <-? ar_at (t_refs t) pos obscured ;;
      Ok (current_literal,
          match candidates with
          | None => None
          | Some it =>
              picker (cfg_picker (t_config t)) (firstn limit it)
                     (quit_search_above_length (cfg_wams (t_config t)))
          end)
  end.

(** lib.rs:65-67 *)
Definition best_candidate (t : Technique) (obscured : list Obscure) (pos : nat)
  : outcome (N * option Ref) := best_candidate_better_than t obscured pos None.

(** ** lookahead.rs *)

(** lookahead.rs:22-27 *)
Definition la_greedy (t : Technique) (ob : list Obscure) (pos : nat) : outcome (list Code) :=
  c <-? best_candidate t ob pos ;;
  Ok [match c with
      | (_, Some r) => Reference r
      | (b, None) => Literal b
      end].

(** lookahead.rs:37-50; each iteration strictly increases the current run (at most 258) *)
Fixpoint la_gzip_loop (fuel : nat) (t : Technique) (ob : list Obscure) (pos : nat)
         (curr_lit : N) (curr_ref : Ref) : outcome (list Code) :=
  match fuel with
  | O => Diverge
  | S fuel' =>
      let pos := S pos in
      c <-? best_candidate_better_than t ob pos (Some (r_run curr_ref)) ;;
      match c with
      | (b, Some new) =>
          if r_run curr_ref <? r_run new
          then more <-? la_gzip_loop fuel' t ob pos b new ;; Ok (Literal curr_lit :: more)
          else Ok [Reference curr_ref]
      | (_, None) => Ok [Reference curr_ref]
      end
  end.

(** lookahead.rs:29-53 *)
Definition la_gzip (t : Technique) (ob : list Obscure) (pos : nat) : outcome (list Code) :=
  c <-? best_candidate t ob pos ;;
  match c with
  | (lit, Some start) => la_gzip_loop 300 t ob pos lit start
  | (b, None) => Ok [Literal b]
  end.

(** lookahead.rs:55-101 *)
Definition la_three_zip (t : Technique) (ob : list Obscure) (pos : nat) : outcome (list Code) :=
  c <-? best_candidate t ob pos ;;
  match c with
  | (b, None) => Ok [Literal b]
  | (first_literal, Some first_best) =>
      if 3 <? r_run first_best then Ok [Reference first_best]
      else if negb (3 =? r_run first_best) then Panic "assert_eq!(3, first_best.run())"
      else
        c2 <-? best_candidate t ob (pos + 1) ;;
        let '(second_literal, second_best) := c2 in
        let second_best := option_filter (fun x => 3 <? r_run x) second_best in
        let go_on (_ : unit) :=
          c3 <-? best_candidate t ob (pos + 2) ;;
          let '(_, third_best) := c3 in
          let third_best := option_filter (fun x => 4 <? r_run x) third_best in
          let third_result third_run :=
            [Literal first_literal; Literal second_literal; Reference third_run] in
          match second_best with
          | Some second_run =>
              match third_best with
              | Some third_run =>
                  if r_run second_run <? r_run third_run then Ok (third_result third_run)
                  else Ok [Literal first_literal; Reference second_run]
              | None => Ok [Literal first_literal; Reference second_run]
              end
          | None =>
              match third_best with
              | Some third_run => Ok (third_result third_run)
              | None => Ok [Reference first_best]
              end
          end in
        match second_best with
        | Some r => if r_run r =? 258 then Ok [Literal first_literal; Reference r] else go_on tt
        | None => go_on tt
        end
  end.

(** lookahead.rs:13-19 *)
Definition lookahead (l : Lookahead) (t : Technique) (ob : list Obscure) (pos : nat)
  : outcome (list Code) :=
  match l with
  | LGreedy => la_greedy t ob pos
  | LGzip => la_gzip t ob pos
  | LThreeZip => la_three_zip t ob pos
  end.

(** technique.rs:153-155 *)
Definition sc_codes (t : Technique) (s : Scanner) : outcome (list Code) :=
  lookahead (cfg_lookahead (t_config t)) t (sc_obscured s) (sc_pos s).
