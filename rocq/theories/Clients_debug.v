(** What C67 talks about.  Nothing here models code of the repository. *)
From Verif Require Import Base M_lib M_debug Spec.
Local Open Scope N_scope.

(** [a] comes before [b] in the order of the listing: at the first difference [a] has a zero and [b] a one. *)
Definition bits_before (a b : list bool) : Prop :=
  exists common a' b', a = common ++ false :: a' /\ b = common ++ true :: b'.

(** Every element comes before every later one. *)
Definition ascending {A} (before : A -> A -> Prop) (l : list A) : Prop :=
  forall l1 x l2 y l3, l = l1 ++ x :: l2 ++ y :: l3 -> before x y.

(** How a symbol is shown. *)
Definition shows (v : symbol_text) (s : N) : Prop :=
  s < 256 /\ v = TByte s \/ s = 256 /\ v = TEnd \/ 256 < s /\ v = TOther (s - 256).

(** The values a [Code] can hold: a literal is a byte. *)
Definition literal_byte (c : Code) : Prop := match c with Literal b => b < 256 | Reference _ => True end.

(** Numbers in the usual notation: the value of a digit, with lower case letters above nine, and of the numeral [t]
    after the digits worth [v]. *)
Definition digit_value (c : N) : option N :=
  if (48 <=? c) && (c <=? 57) then Some (c - 48) else if (97 <=? c) && (c <=? 102) then Some (c - 87) else None.
Fixpoint numeral (base : N) (v : N) (t : list N) : option N :=
  match t with
  | [] => Some v
  | c :: t' => match digit_value c with Some d => if d <? base then numeral base (v * base + d) t' else None | None => None end
  end.
