(** What C93 talks about.  Nothing here models code of the repository. *)
From Verif Require Import Base M_lib M_all_refs M_technique M_trace M_text M_example M_example_text Spec.
Local Open Scope N_scope.

(** UTF-8 (RFC 3629): the bytes of a character. *)
Inductive utf8 : N -> list N -> Prop :=
| utf8_1 c : c < 128 -> utf8 c [c]
| utf8_2 a b : a < 32 -> b < 64 -> 128 <= a * 64 + b -> utf8 (a * 64 + b) [192 + a; 128 + b]
| utf8_3 a b c : a < 16 -> b < 64 -> c < 64 -> 2048 <= a * 4096 + b * 64 + c ->
    (a * 4096 + b * 64 + c < 55296 \/ 57344 <= a * 4096 + b * 64 + c) ->
    utf8 (a * 4096 + b * 64 + c) [224 + a; 128 + b; 128 + c]
| utf8_4 a b c d : a < 8 -> b < 64 -> c < 64 -> d < 64 -> 65536 <= a * 262144 + b * 4096 + c * 64 + d < 1114112 ->
    utf8 (a * 262144 + b * 4096 + c * 64 + d) [240 + a; 128 + b; 128 + c; 128 + d].

(** Some character's bytes start like this. *)
Definition starts (part : list N) : Prop := exists c more, utf8 c (part ++ more).

(** Bytes as characters.  Where there is no character, U+FFFD stands for the longest start of one, or for a single
    byte that starts none (the Unicode standard's "maximal subparts"). *)
Inductive shown : list N -> list N -> Prop :=
| shown_end : shown [] []
| shown_char c w rest cs : utf8 c w -> shown rest cs -> shown (w ++ rest) (c :: cs)
| shown_bad part rest cs : part <> [] -> (starts part \/ List.length part = 1%nat) ->
    (forall b more, rest = b :: more -> ~ starts (part ++ [b])) ->
    (forall c w more, utf8 c w -> part ++ rest <> w ++ more) ->
    shown rest cs -> shown (part ++ rest) (65533 :: cs).

(** The data a technique searches. *)
Definition searched (t : Technique) : list N := ar_preroll (t_refs t) ++ ar_data (t_refs t).

(** Two lines of the tracing example that say the same: neighbouring bytes only count as the characters they show, and
    of the data that was searched only which positions other than the first have which hash. *)
Definition says_same (l1 l2 : example_line) : Prop :=
  match l1, l2 with
  | XHint pos1 context1 guess1 hint1, XHint pos2 context2 guess2 hint2 =>
      pos1 = pos2 /\ (exists s, shown context1 s /\ shown context2 s) /\ guess1 = guess2 /\ hint1 = hint2
  | XGuesser t1 s1, XGuesser t2 s2 =>
      t_config t1 = t_config t2 /\ s1 = s2
      /\ forall hash, filter (fun q => hash3 (searched t1) q =? hash) (seq 1 (List.length (searched t1) - 3))
                    = filter (fun q => hash3 (searched t2) q =? hash) (seq 1 (List.length (searched t2) - 3))
  | _, _ => l1 = l2
  end.

(** A hidden match as it is to be shown: where it starts and how long it is. *)
Definition pair_text (h : nat * N) : list N := text "(" ++ decimal (N.of_nat (fst h)) ++ text ", " ++ decimal (snd h) ++ text ")".
