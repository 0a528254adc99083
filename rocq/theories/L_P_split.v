(** Proofs of C103. *)
From Verif Require Import Base M_bit M_lib M_all_refs M_technique M_trace Spec Clients Spec_encoder Clients_encoder Clients_exact Clients_local Clients_restore Clients_hints Clients_hints Clients_split
  L_bits L_ring L_search L_P_search L_tech L_P_tech L_trace L_strace L_P_trace L_P_encoder L_P_exact L_P_local L_P_accept L_P_retrace L_P_levels.
From Coq Require Import ZArith ZifyBool ZifyNat ZifyN.
Ltac Zify.zify_post_hook ::= Z.div_mod_to_equations.
Local Open Scope N_scope.
Local Open Scope model_scope.

Lemma greedy_single w config limit : cfg_lookahead config = LGreedy -> single (choice_of w config limit).
Proof. intros EG runs pos gs H. unfold choice_of in H. rewrite EG in H. inversion H; eauto. Qed.

Lemma long_runs_cons l pos c codes : long_runs l pos (c :: codes) = long_runs l pos [c] ++ long_runs l (pos + codes_len [c]) codes.
Proof. cbn [long_runs]. unfold codes_len. cbn [map list_sum fold_right]. now rewrite app_nil_r, Nat.add_0_r. Qed.
Lemma codes_len_cons c codes : codes_len (c :: codes) = (codes_len [c] + codes_len codes)%nat.
Proof. change (c :: codes) with ([c] ++ codes). apply L_P_exact.codes_len_app. Qed.

Lemma traced_split w l choice : single choice -> forall c1 runs pos c2 h, (pos + codes_len c1 <= List.length w)%nat ->
  traced w l choice runs pos (c1 ++ c2) h ->
  exists h1 h2, h = h1 ++ h2 /\ List.length h1 = List.length c1 /\ traced w l choice (runs ++ long_runs l pos c1) (pos + codes_len c1) c2 h2.
Proof.
  intros SI c1. induction c1 as [|c c1 IH]; intros runs pos c2 h HP HT.
  - exists [], h. cbn [long_runs]. rewrite app_nil_r. unfold codes_len. cbn [map list_sum fold_right]. rewrite Nat.add_0_r. repeat split. exact HT.
  - assert (PC := codes_len_pos c []). rewrite codes_len_cons in HP. rewrite (long_runs_cons l pos c c1), (codes_len_cons c c1). remember ((c :: c1) ++ c2) as all eqn:E2. destruct HT as [runs pos cs LP|runs pos gs cs hs LP HC HN|runs pos right g more x cs hs LP HC NE HN].
    + lia.
    + destruct (SI _ _ _ HC) as (g & ->). cbn [app] in E2. injection E2 as -> ->. cbn [List.length repeat app]. destruct (IH (runs ++ long_runs l pos [c]) (pos + codes_len [c])%nat c2 hs) as (h1 & h2 & -> & EL & HT2); [lia|exact HN|].
      exists (Correct :: h1), h2. cbn [List.length app]. split; [reflexivity|]. split; [congruence|]. rewrite app_assoc, Nat.add_assoc. exact HT2.
    + destruct (SI _ _ _ HC) as (g' & EG). destruct right as [|z [|z' right]]; cbn [app] in EG; try discriminate EG. cbn [app] in *. injection E2 as -> ->.
      cbn [List.length repeat app]. destruct (IH (runs ++ long_runs l pos [c]) (pos + codes_len [c])%nat c2 hs) as (h1 & h2 & -> & EL & HT2); [lia|exact HN|].
      exists (instead c :: h1), h2. cbn [List.length app]. split; [reflexivity|]. split; [congruence|]. rewrite app_assoc, Nat.add_assoc. exact HT2.
Qed.

Lemma code_eq_dec (a b : Code) : a = b \/ a <> b.
Proof. destruct (Code_eqb a b) eqn:E; [left; now apply Code_eqb_spec|right; intro X; apply Code_eqb_spec in X; congruence]. Qed.

Lemma traced_join w t : refs_of w (t_refs t) -> bytes_ok w ->
  let choice := choice_of w (t_config t) (ar_limit (t_refs t)) in let l := insert_only_below_length (cfg_wams (t_config t)) in
  single choice -> forall c1 runs pos c2 h2, (pos + codes_len c1 <= List.length w)%nat ->
  traced w l choice (runs ++ long_runs l pos c1) (pos + codes_len c1) c2 h2 ->
  exists h1, List.length h1 = List.length c1 /\ traced w l choice runs pos (c1 ++ c2) (h1 ++ h2).
Proof.
  intros R HB choice l SI c1. induction c1 as [|c c1 IH]; intros runs pos c2 h2 HP HT.
  - exists []. cbn [long_runs] in HT. rewrite app_nil_r in HT. unfold codes_len in HT. cbn [map list_sum fold_right] in HT. rewrite Nat.add_0_r in HT. split; [reflexivity|exact HT].
  - assert (PC := codes_len_pos c []). rewrite codes_len_cons in HP. rewrite (long_runs_cons l pos c c1), (codes_len_cons c c1), app_assoc, Nat.add_assoc in HT.
    destruct (IH (runs ++ long_runs l pos [c]) (pos + codes_len [c])%nat c2 h2) as (h1 & EL & HT1); [lia|exact HT|].
    destruct (guesses w t R HB (mkScanner runs pos)) as (gs & _ & HC & _); [cbn [sc_pos]; lia|]. cbn [sc_obscured sc_pos] in HC. fold choice in HC. destruct (SI _ _ _ HC) as (g & ->).
    destruct (code_eq_dec g c) as [->|NE].
    + exists (Correct :: h1). split; [cbn [List.length]; congruence|]. exact (tr_right w l choice runs pos [c] (c1 ++ c2) (h1 ++ h2) ltac:(lia) HC HT1).
    + exists (instead c :: h1). split; [cbn [List.length]; congruence|]. exact (tr_wrong w l choice runs pos [] g [] c (c1 ++ c2) (h1 ++ h2) ltac:(lia) HC NE HT1).
Qed.

Lemma C103_lemma_rest : forall config preroll data1 data2 limit refs refs' codes1 codes2,
  bytes_ok preroll -> bytes_ok data1 -> bytes_ok data2 -> cfg_lookahead config = LGreedy ->
  with_sixteen preroll (data1 ++ data2) limit = Ok refs -> with_sixteen (preroll ++ data1) data2 limit = Ok refs' ->
  codes_len codes1 = List.length data1 -> long_runs (insert_only_below_length (cfg_wams config)) (List.length preroll) codes1 = [] ->
  forall hints2, trace codes2 (mkTechnique config refs') = Ok hints2
    <-> exists hints1, List.length hints1 = List.length codes1 /\ trace (codes1 ++ codes2) (mkTechnique config refs) = Ok (hints1 ++ hints2).
Proof.
  intros config preroll data1 data2 limit refs refs' codes1 codes2 BP B1 B2 EG EW EW' EL ER hints2.
  assert (BA : bytes_ok (data1 ++ data2)) by now apply Forall_app. assert (BB : bytes_ok (preroll ++ data1)) by now apply Forall_app.
  destruct (made config _ _ _ _ EW) as (R & _ & _ & ELI & _).
  rewrite (C91_lemma_trace config _ _ _ _ codes2 hints2 BB B2 EW'), <- app_assoc, app_length, <- EL.
  assert (HP : (List.length preroll + codes_len codes1 <= List.length (preroll ++ data1 ++ data2))%nat) by (rewrite !app_length; lia).
  assert (SI := greedy_single (preroll ++ data1 ++ data2) config limit EG). split.
  - intro HT. assert (J := traced_join (preroll ++ data1 ++ data2) (mkTechnique config refs) R ltac:(now apply Forall_app)). cbn [t_config t_refs] in J. rewrite ELI in J.
    destruct (J SI codes1 [] (List.length preroll) codes2 hints2 HP) as (h1 & E1 & H1); [rewrite ER; exact HT|].
    exists h1. split; [exact E1|]. now apply (C91_lemma_trace config _ _ _ _ _ _ BP BA EW).
  - intros (h1 & E1 & E). apply (C91_lemma_trace config _ _ _ _ _ _ BP BA EW) in E.
    destruct (traced_split _ _ _ SI codes1 [] _ codes2 _ HP E) as (g1 & g2 & EQ & E2 & H2). rewrite ER in H2.
    assert (X : hints2 = g2). { assert (Y := f_equal (skipn (List.length codes1)) EQ). rewrite <- E1 in Y at 1. rewrite <- E2 in Y. rewrite !skipn_app, !skipn_all, !Nat.sub_diag in Y. exact Y. }
    now subst.
Qed.

Lemma long_runs_none pos codes : long_runs None pos codes = [].
Proof. revert pos. induction codes as [|c codes IH]; intro pos; [reflexivity|]. cbn [long_runs]. rewrite IH. now destruct c. Qed.

Lemma exact_covers total codes : forall pos, (pos + codes_len codes)%nat = total -> covers total pos codes.
Proof.
  induction codes as [|c codes IH]; intros pos E; cbn [covers].
  - unfold codes_len in E. cbn [map list_sum fold_right] in E. lia.
  - assert (PC := codes_len_pos c []). rewrite codes_len_cons in E. assert (X : codes_len [c] = code_bytes c).
    { rewrite codes_len_emitted. cbn [emitted]. rewrite <- L_restore.code_bytes_emitted. lia. }
    rewrite X in *. split; [lia|]. apply IH. lia.
Qed.

Lemma hints_total config limit preroll data codes : bytes_ok preroll -> bytes_ok data -> codes_len codes = List.length data ->
  exists refs hints, with_sixteen preroll data limit = Ok refs /\ trace codes (mkTechnique config refs) = Ok hints /\ List.length hints = List.length codes.
Proof.
  intros BP BD EL. destruct (with_sixteen_ok preroll data limit) as (refs & EW & _). destruct (made config _ _ _ _ EW) as (R & EP & ED & _).
  destruct (any_traced (preroll ++ data) (mkTechnique config refs) R ltac:(now apply Forall_app) (S (sc_data_len (mkTechnique config refs))) (scanner (mkTechnique config refs)) codes) as (h & E & ELH & _).
  - apply exact_covers. rewrite EP, app_length. lia.
  - rewrite ED. lia.
  - exists refs, h. auto.
Qed.

Lemma C103_lemma_blocks : forall config limit blocks preroll,
  bytes_ok preroll -> Forall (fun block => bytes_ok (fst block) /\ codes_len (snd block) = List.length (fst block)) blocks ->
  cfg_lookahead config = LGreedy -> insert_only_below_length (cfg_wams config) = None ->
  exists whole parts,
    hints_of config limit preroll (flat_map fst blocks) (flat_map snd blocks) = Ok whole /\ block_hints config limit preroll blocks = Ok parts
    /\ map (@List.length Trace) parts = map (fun block => List.length (snd block)) blocks /\ List.length whole = List.length (flat_map snd blocks)
    /\ forall before data codes codes' after,
         blocks = before ++ (data, codes ++ codes') :: after -> (codes_len codes + 258 <= List.length data)%nat \/ after = [] ->
         firstn (List.length codes) (nth (List.length before) parts []) = firstn (List.length codes) (skipn (List.length (flat_map snd before)) whole).
Proof.
  intros config limit blocks preroll BP FB EG EI. revert preroll BP. induction blocks as [|[d c] blocks IH]; intros preroll BP.
  - destruct (hints_total config limit preroll [] [] BP (Forall_nil _) eq_refl) as (refs & h & EW & ET & EL). exists h, []. cbn [flat_map block_hints map List.length] in *.
    unfold hints_of. rewrite EW. cbn [obind]. split; [exact ET|]. split; [reflexivity|]. split; [reflexivity|]. split; [exact EL|].
    intros before data codes codes' after E. destruct before; discriminate E.
  - inversion FB as [|x l [BD EL] FB']; subst. cbn [fst snd] in BD, EL. destruct (IH FB' (preroll ++ d) ltac:(now apply Forall_app)) as (whole & parts & EW & EP & EM & ELW & HA). clear IH.
    assert (BR : bytes_ok (flat_map fst blocks)). { clear - FB'. induction FB' as [|[x y] l [H _] _ IH]; [constructor|]. cbn [flat_map fst]. now apply Forall_app. }
    destruct (hints_total config limit preroll d c BP BD EL) as (refs & h & EWD & ET & ELH).
    destruct (with_sixteen_ok preroll (d ++ flat_map fst blocks) limit) as (refs0 & EW0 & _).
    unfold hints_of in EW. apply obind_ok in EW. destruct EW as (refs1 & EW1 & ET1).
    destruct (proj1 (C103_lemma_rest config preroll d (flat_map fst blocks) limit refs0 refs1 c (flat_map snd blocks) BP BD BR EG EW0 EW1 EL ltac:(rewrite EI; apply long_runs_none) whole) ET1) as (h1 & EL1 & ET0).
    exists (h1 ++ whole), (h :: parts). cbn [flat_map block_hints map fst snd]. unfold hints_of. rewrite EW0. cbn [obind].
    split; [exact ET0|]. split; [rewrite EWD; cbn [obind]; rewrite ET; cbn [obind]; rewrite EP; reflexivity|]. split; [congruence|].
    split; [rewrite !app_length; congruence|].
    intros [|b before] data codes codes' after E HC; cbn [app] in E.
    + injection E as -> -> ->. cbn [List.length nth flat_map skipn]. destruct HC as [HC|HC].
      * rewrite firstn_app. rewrite <- app_assoc in ET0. rewrite <- (app_nil_r data) in EWD.
        assert (X := C89_lemma_future_trace config preroll data [] (flat_map fst after) limit refs refs0 codes codes' (codes' ++ flat_map snd after) h (h1 ++ whole) BP ltac:(now apply Forall_app) EWD EW0
          ltac:(rewrite EG; exact HC) ET ET0). rewrite X, firstn_app. reflexivity.
      * subst after. cbn [flat_map] in *. rewrite !app_nil_r in *. rewrite EWD in EW0. injection EW0 as <-. rewrite ET in ET0. injection ET0 as ->. reflexivity.
    + injection E as <- E. cbn [List.length nth flat_map snd]. rewrite (HA before data codes codes' after E HC), app_length, <- EL1, skipn_app.
      rewrite (skipn_all2 h1) by lia. cbn [app]. do 2 f_equal. lia.
Qed.

Lemma C103_lemma_low : forall level, 1 <= level <= 3 -> exists config limit blocks whole parts,
  Config_gzip level = Ok config /\ insert_only_below_length (cfg_wams config) = Some limit /\ Forall (fun block => bytes_ok (fst block) /\ codes_len (snd block) = List.length (fst block)) blocks
  /\ encodes [] (flat_map fst blocks) (flat_map snd blocks)
  /\ hints_of config limit [] (flat_map fst blocks) (flat_map snd blocks) = Ok whole /\ block_hints config limit [] blocks = Ok parts
  /\ List.concat parts <> whole /\ parts = map (fun block => repeat Correct (List.length (snd block))) blocks.
Proof.
  intros level HL. assert (EC : exists config, Config_gzip level = Ok config).
  { assert (level = 1 \/ level = 2 \/ level = 3) as D by lia. decompose [or] D; subst level; eexists; vm_compute; reflexivity. }
  destruct EC as (config & EC). exists config, (level + 3), [([0; 1; 2; 3; 4; 5; 6; 7; 8; 1; 2; 3; 4; 5; 6; 7; 8], map Literal [0; 1; 2; 3; 4; 5; 6; 7; 8] ++ [Reference (mkRef 8 5)]); ([3; 4; 5; 9], [Reference (mkRef 6 0); Literal 9])].
  exists (repeat Correct 10 ++ [Actually (mkRef 6 0); Correct]), [repeat Correct 10; repeat Correct 2]. split; [exact EC|]. assert (level = 1 \/ level = 2 \/ level = 3) as D by lia.
  split; [decompose [or] D; subst level; vm_compute in EC; injection EC as <-; reflexivity|].
  split; [repeat (apply Forall_cons; [split; [repeat (apply Forall_cons; [reflexivity|]); apply Forall_nil|vm_compute; reflexivity]|]); apply Forall_nil|].
  split; [vm_compute; reflexivity|].
  decompose [or] D; subst level; vm_compute in EC; injection EC as <-; (split; [vm_compute; reflexivity|]); (split; [vm_compute; reflexivity|]); (split; [discriminate|vm_compute; reflexivity]).
Qed.
