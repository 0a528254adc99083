(** Proofs of C36-C38, C53. *)
From Verif Require Import Base M_bit M_lib M_all_refs M_technique Spec Clients L_bits L_ring L_search L_P_search L_tech.
From Coq Require Import ZArith ZifyBool ZifyNat ZifyN Sorted.
Ltac Zify.zify_post_hook ::= Z.div_mod_to_equations.
Local Open Scope N_scope.
Local Open Scope model_scope.

Lemma C36_lemma : forall (A : Type) (score : A -> N) (cap : N) (l : list A),
  (capped_max_by score cap l = None <-> l = [])
  /\ forall x, capped_max_by score cap l = Some x <-> first_best score cap l x.
Proof.
  intros A score cap l. assert (X := capped_spec score cap l). destruct (capped_max_by score cap l) as [m|] eqn:E.
  - split.
    + split; [discriminate|]. intros ->. apply first_best_in in X. contradiction.
    + intro x. split; [now intros [= <-]|]. intro H. f_equal. now apply (first_best_unique score cap l).
  - subst l. split; [tauto|]. intro x. split; [discriminate|]. intro H. apply first_best_in in H. contradiction.
Qed.

Lemma C37_lemma : forall p l cap,
  match picker p l cap with
  | Some r => In r l /\ first_best ref_len cap l r /\ (p = DropFarThrees -> 3 < ref_len r \/ r_dist r <= 4096)
  | None => l = [] \/ (p = DropFarThrees /\ exists r, first_best ref_len cap l r /\ ref_len r <= 3 /\ 4096 < r_dist r)
  end.
Proof.
  intros p l cap. assert (X := capped_spec r_run cap l). unfold picker, drop_far_threes, longest, option_filter.
  destruct (capped_max_by r_run cap l) as [x|].
  - assert (I := first_best_in _ _ _ _ X). destruct p.
    + split; [assumption|]. split; [exact X|discriminate].
    + destruct ((3 <? r_run x) || (r_dist x <=? 4096)) eqn:E.
      * split; [assumption|]. split; [exact X|]. intros _. unfold r_run, ref_len in *. lia.
      * right. split; [reflexivity|]. exists x. split; [exact X|]. unfold r_run, ref_len in *. lia.
  - destruct p; now left.
Qed.

Lemma C38_lemma : forall preroll data limit config refs hidden_runs pos,
  bytes_ok preroll -> bytes_ok data -> with_sixteen preroll data limit = Ok refs ->
  (pos < List.length (preroll ++ data))%nat ->
  exists codes n, sc_codes (mkTechnique config refs) (mkScanner hidden_runs pos) = Ok codes
    /\ codes <> [] /\ (0 < n)%nat /\ (pos + n <= List.length (preroll ++ data))%nat
    /\ Forall code_ok codes
    /\ encodes (firstn pos (preroll ++ data)) (firstn n (skipn pos (preroll ++ data))) codes.
Proof.
  intros preroll data limit config refs runs pos B1 B2 EW Hp. destruct (with_sixteen_ok preroll data limit) as (a' & EW' & R & _).
  rewrite EW in EW'. injection EW' as <-. set (w := preroll ++ data) in *.
  destruct (guess_ok w (mkTechnique config refs) (cfg_lookahead config) runs pos R ltac:(now apply Forall_app) Hp) as (codes & k & E & HN & HK & [HD1 HD2] & HO).
  exists codes, k. split; [exact E|]. split; [assumption|]. split; [assumption|]. split; [assumption|]. split; [assumption|].
  unfold encodes. rewrite HD2. f_equal. rewrite <- (firstn_skipn pos w) at 1.
  rewrite firstn_app. rewrite firstn_firstn. replace (Nat.min (pos + k) pos) with pos by lia. f_equal. f_equal. rewrite firstn_length. lia.
Qed.

Lemma C53_lemma : forall level, level < 256 ->
  (level < 1 \/ 9 < level -> Config_gzip level = Panic "gzip levels are between 1 and 9, inclusive")
  /\ forall good lazy_ nice chain, 1 <= level -> nth_error gzip_levels (N.to_nat (level - 1)) = Some (good, lazy_, nice, chain) ->
     exists c, Config_gzip level = Ok c
       /\ cfg_picker c = (if level <? 4 then Longest else DropFarThrees)
       /\ quit_search_above_length (cfg_wams c) = nice
       /\ N.of_nat (limit_count_of_distances (cfg_wams c)) = chain
       /\ insert_only_below_length (cfg_wams c) = (if level <? 4 then Some lazy_ else None)
       /\ match wams_lookahead (cfg_wams c) with
          | None => level < 4
          | Some la => 4 <= level /\ apathetic_above_length la = good /\ abort_above_length la = lazy_
          end.
Proof.
  intros level _. unfold Config_gzip. split.
  - intro H. assert (X : (1 <=? level) && (level <=? 9) = false) by lia. now rewrite X.
  - intros good lazy_ nice chain H1 E. assert (H9 : (N.to_nat (level - 1) < 9)%nat) by (change 9%nat with (List.length gzip_levels); apply nth_error_Some; congruence).
    assert (X : (1 <=? level) && (level <=? 9) = true) by lia. rewrite X.
    assert (level = 1 \/ level = 2 \/ level = 3 \/ level = 4 \/ level = 5 \/ level = 6 \/ level = 7 \/ level = 8 \/ level = 9) as D by lia.
    decompose [or] D; subst level; vm_compute in E; injection E as <- <- <- <-; eexists;
      (split; [reflexivity|]); repeat split; try reflexivity; vm_compute; congruence.
Qed.

(** Position 11 has a match of length 4 (the lazy length of level 4), yet the search one further goes on. *)
Lemma C53_lemma_refuted : exists data refs c la pos known literal r,
  with_sixteen [] data 16 = Ok refs /\ Config_gzip 4 = Ok c /\ wams_lookahead (cfg_wams c) = Some la
  /\ abort_above_length la <= known
  /\ best_candidate_better_than (mkTechnique c refs) [] pos (Some known) = Ok (literal, Some r).
Proof.
  exists [0; 97; 98; 99; 100; 1; 98; 99; 100; 101; 102; 2; 97; 98; 99; 100; 101; 102].
  eexists. eexists. eexists. exists 13%nat, 4, 98. eexists.
  split; [vm_compute; reflexivity|]. split; [vm_compute; reflexivity|]. split; [vm_compute; reflexivity|].
  split; [vm_compute; congruence|]. vm_compute. reflexivity.
Qed.

(** What the code does instead. *)
Lemma C53_lemma_inverted : forall c refs la obscured pos known literal found,
  wams_lookahead (cfg_wams c) = Some la -> known < abort_above_length la ->
  best_candidate_better_than (mkTechnique c refs) obscured pos (Some known) = Ok (literal, found) -> found = None.
Proof.
  intros c refs la ob pos known literal found E HK. unfold best_candidate_better_than, search_limit. cbn [t_config t_refs]. rewrite E.
  destruct (ar_get refs pos); cbn [obind]; try discriminate. destruct (N.ltb_spec known (abort_above_length la)); [|lia]. congruence.
Qed.
