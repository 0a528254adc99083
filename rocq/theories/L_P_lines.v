(** Proofs of C72 and C93: what single lines look like. *)
From Verif Require Import Base M_bit M_lib M_all_refs M_technique M_trace M_text M_example M_example_text M_examples Spec Clients Clients_text.
Local Open Scope N_scope.
Local Open Scope model_scope.

Lemma C72_lemma_line : forall n s more,
  collision_text (n, s :: more) = decimal (N.of_nat n) ++ text " " ++ s ++ flat_map (fun t => text ", " ++ t) more ++ [10].
Proof.
  intros n s more. unfold collision_text. cbn [fst snd]. do 2 f_equal.
  assert (X : join (text ", ") (s :: more) = s ++ flat_map (fun t => text ", " ++ t) more).
  { revert s. induction more as [|t more IH]; intro s; [cbn [join flat_map]; now rewrite app_nil_r|].
    change (join (text ", ") (s :: t :: more)) with (s ++ text ", " ++ join (text ", ") (t :: more)). rewrite IH. cbn [flat_map]. now rewrite <- app_assoc. }
  rewrite X. now rewrite <- app_assoc.
Qed.

Lemma list_debug_commas {A} (f : A -> list N) l :
  list_debug f l = text "[" ++ match l with [] => [] | x :: more => f x ++ flat_map (fun y => text ", " ++ f y) more end ++ text "]".
Proof.
  destruct l as [|x l]; [reflexivity|]. unfold list_debug. f_equal. rewrite <- app_assoc. f_equal.
  induction l as [|y l IH]; [reflexivity|]. cbn [list_debug_from flat_map]. rewrite IH, <- !app_assoc. reflexivity.
Qed.

Local Opaque refs_text config_debug decimal.
Lemma C93_lemma_guesser : forall plain technique hidden pos out,
  example_line_text plain (XGuesser technique (mkScanner hidden pos)) = Ok out ->
  exists searching, out = text "   * guesser: Scanner { technique: Technique { config: " ++ searching ++ text " }, obscured: ["
    ++ match hidden with
       | [] => []
       | h :: more => pair_text h ++ flat_map (fun h' => text ", " ++ pair_text h') more
       end
    ++ text "], pos: " ++ decimal (N.of_nat pos) ++ text " }".
Proof.
  intros plain technique hidden pos out E. cbn [example_line_text] in E. unfold scanner_debug, technique_debug in E. cbn [sc_obscured sc_pos] in E.
  destruct (refs_text (t_refs technique)) as [r| | |]; try discriminate E. cbn [obind] in E.
  match type of E with Ok ?x = Ok ?y => assert (EX : y = x) by congruence end. rewrite EX. clear E EX. rewrite list_debug_commas.
  exists (config_debug (t_config technique) ++ text ", all_refs: " ++ r).
  replace (text "   * guesser: Scanner { technique: Technique { config: ") with (text "   * guesser: " ++ text "Scanner { technique: " ++ text "Technique { config: ") by reflexivity.
  replace (text " }, obscured: [") with (text " }" ++ text ", obscured: " ++ text "[") by reflexivity. replace (text "], pos: ") with (text "]" ++ text ", pos: ") by reflexivity.
  replace obscure_debug with pair_text by reflexivity. rewrite <- !app_assoc. reflexivity.
Qed.
