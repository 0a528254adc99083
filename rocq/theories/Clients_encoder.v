(** Reading a configuration as the parameters of a specified encoder.  Nothing here models code of the
    repository. *)
From Verif Require Import Base M_bit M_lib M_all_refs M_technique Spec Spec_encoder.
Local Open Scope N_scope.

Definition refuses_far_threes (p : Picker) : bool := match p with Longest => false | DropFarThrees => true end.

(** [limit] is the limit the dictionary ([AllRefs]) was made with. *)
Definition plain_search (c : Config) (limit : N) : search :=
  mkSearch (N.to_nat limit) (limit_count_of_distances (cfg_wams c)) (quit_search_above_length (cfg_wams c))
           (refuses_far_threes (cfg_picker c)).

(** The search made while holding a match of length [len].  The documentation of [abort_above_length] says
    there is none when [len] is at least that; see C53_abort_refuted for the code's reading. *)
Definition next_search (c : Config) (limit : N) (len : N) : option search :=
  match wams_lookahead (cfg_wams c) with
  | None => Some (plain_search c limit)
  | Some la =>
      if len <? abort_above_length la then None
      else Some (mkSearch (N.to_nat limit)
                   (if apathetic_above_length la <? len
                    then (limit_count_of_distances (cfg_wams c) / 4)%nat else limit_count_of_distances (cfg_wams c))
                   (quit_search_above_length (cfg_wams c)) (refuses_far_threes (cfg_picker c)))
  end.

Definition finds (w : list N) (c : Config) (limit : N) (runs : list (nat * N)) (pos : nat) (r : Ref) : Prop :=
  match_at w (plain_search c limit) runs pos r.
Definition finds_next (w : list N) (c : Config) (limit : N) (runs : list (nat * N)) (len : N) (pos : nat) (r : Ref) : Prop :=
  exists s, next_search c limit len = Some s /\ match_at w s runs pos r.

Definition choice_of (w : list N) (c : Config) (limit : N) (runs : list (nat * N)) (pos : nat) (codes : list Code) : Prop :=
  match cfg_lookahead c with
  | LGreedy => greedy_choice w (finds w c limit runs) pos codes
  | LGzip => lazy_choice w (finds w c limit runs) (finds_next w c limit runs) pos codes
  | LThreeZip => three_choice w (finds w c limit runs) pos codes
  end.

(** The encoder of a configuration, after [pos] bytes of [w]. *)
Definition encoder_of (w : list N) (c : Config) (limit : N) (pos : nat) (codes : list Code) : Prop :=
  encoder w (insert_only_below_length (cfg_wams c)) (choice_of w c limit) [] pos codes.
