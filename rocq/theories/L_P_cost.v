(** Proofs of C51. *)
From Verif Require Import Base M_bit M_lib M_code_tree M_huffman M_parse M_serialise Spec Clients
  L_bits L_writer L_reader L_tree L_huff L_header L_ser.
From Coq Require Import ZArith ZifyBool ZifyNat ZifyN.
Ltac Zify.zify_post_hook ::= Z.div_mod_to_equations.
Local Open Scope N_scope.
Local Open Scope model_scope.

Lemma extra_sweep r : ref_ok r -> forall x, extra_run_length (r_run r) = Ok x ->
  length_extra_bits (Reference r) = match x with Some p => fst p | None => 0 end.
Proof.
  intros [_ H]. unfold length_extra_bits, ref_len, r_run. 
  assert (F : forallb (fun n => match extra_run_length (n + 3) with
     | Ok x => N.eqb (fold_left (fun acc row => let '(_, extra, base) := row in if base <=? n + 3 then extra else acc) length_table 0)
                     (match x with Some p => fst p | None => 0 end)
     | _ => false end) (range 0 256) = true) by (vm_compute; reflexivity).
  rewrite forallb_forall in F. specialize (F (r_run_minus_3 r)). rewrite range_in in F. specialize (F ltac:(lia)).
  intros x E. destruct (extra_run_length (r_run_minus_3 r + 3)) as [y| | |]; try discriminate. injection E as ->. now apply N.eqb_eq in F.
Qed.

Lemma rfc_code_length lens s w : rfc_code lens s = Some w -> (List.length w <= 15)%nat.
Proof.
  unfold rfc_code. destruct (nth_error lens (N.to_nat s)); [|discriminate]. destruct (_ && _) eqn:E; [|discriminate]. intro H. injection H as <-.
  unfold msb. rewrite rev_length, lsb_length. lia.
Qed.

Definition opt_len (o : option (list bool)) : option N := match o with Some w => Some (N.of_nat (List.length w)) | None => None end.

Lemma lengths_lookup lens t ls : tree_new lens = Ok t -> (List.length lens <= 288)%nat -> tree_to_lengths t = Ok ls ->
  forall s, s < 288 -> get_idx ls (N.to_nat s) = Ok (opt_len (rfc_code lens s)).
Proof.
  intros HT HL EL s Hs. destruct (tree_invert_spec lens t HT HL) as (inv & E1 & E2 & E3). unfold tree_to_lengths in EL. rewrite E1 in EL. cbn [obind] in EL.
  injection EL as <-. unfold get_idx. rewrite nth_error_map, E3 by assumption. cbn [option_map].
  destruct (rfc_code lens s) as [w|] eqn:EW; [|reflexivity]. cbn [bitvec_of bv_len opt_len]. apply rfc_code_length in EW. rewrite N.mod_small by lia. reflexivity.
Qed.

Section Cost.
  Context (ll dl : list N) (lt dt : code_tree) (ls : Lengths).
  Context (HLT : tree_new ll = Ok lt) (HLL : (List.length ll <= 288)%nat).
  Context (HDT : tree_new dl = Ok dt) (HDL : (List.length dl <= 288)%nat).
  Context (HLS : Lengths_new lt dt = Ok ls).
  Context (inv dinv : list (option bitvec)) (HI : inv_of ll inv) (HD : dinv_of dl (Some dinv)).

  Lemma lookups s : s < 288 -> get_idx (ls_length ls) (N.to_nat s) = Ok (opt_len (rfc_code ll s))
    /\ get_idx (ls_distance ls) (N.to_nat s) = Ok (opt_len (rfc_code dl s)).
  Proof.
    intro Hs. unfold Lengths_new in HLS. destruct (tree_to_lengths lt) as [l| | |] eqn:E1; try discriminate. cbn [obind] in HLS.
    destruct (tree_to_lengths dt) as [d| | |] eqn:E2; try discriminate. cbn [obind] in HLS. injection HLS as <-. cbn [ls_length ls_distance].
    split; eapply lengths_lookup; eauto.
  Qed.

  Lemma code_cost c : code_ok c ->
    (exists n w, Lengths_length ls c = Ok (Some n) /\ (forall out, writes out (compressed_code inv (Some dinv) c) w)
       /\ N.of_nat (List.length w) = n + length_extra_bits c)
    \/ (Lengths_length ls c = Ok None /\ forall out w, wst out w -> fst (compressed_code inv (Some dinv) c w) <> Ok tt).
  Proof.
    intro OK. destruct c as [b|r]; cbn [Lengths_length compressed_code code_ok] in *.
    - destruct (lookups b ltac:(lia)) as [-> _]. assert (G := get_inv ll inv b HI ltac:(lia)). destruct (rfc_code ll b) as [w|]; cbn [opt_len opt_vec] in *.
      + left. eexists. exists w. split; [reflexivity|]. split; [|cbn [length_extra_bits]; lia]. intro out. eapply writes_lift_ok; [exact G|]. apply writes_vec.
      + right. split; [reflexivity|]. intros out w _. unfold bind, lift. rewrite G. discriminate.
    - destruct OK as [OD OR]. assert (RR : r_run r = ref_len r) by reflexivity. assert (BR : 3 <= ref_len r <= 258) by (unfold ref_len; lia).
      destruct (encode_length_spec (ref_len r) BR) as (sym & x & E1 & E2 & TR & _). assert (BL := table_row_length _ _ _ _ TR).
      destruct (encode_distance_spec (r_dist r) OD) as (ds & eb & ev & E3 & TD & _). assert (BD := table_row_distance _ _ _ _ TD).
      rewrite RR, E1. cbn [obind]. destruct (lookups sym ltac:(lia)) as [-> _]. cbn [obind].
      destruct (rfc_code ll sym) as [lw|] eqn:EL; cbn [opt_len].
      + rewrite E3. cbn [obind]. destruct (lookups ds ltac:(lia)) as [_ ->]. cbn [obind].
        assert (WR : forall out, writes out (encode_run inv (ref_len r)) (lw ++ lsb (N.to_nat (match x with Some p => fst p | None => 0 end)) (match x with Some p => snd p | None => 0 end))).
        { intro out. eapply (writes_run ll inv HI); try eassumption; [lia|]. destruct x as [[b v]|]; cbn [fst snd] in *; lia. }
        destruct (rfc_code dl ds) as [dw|] eqn:ED; cbn [opt_len].
        * left. assert (LW := rfc_code_length _ _ _ EL). assert (DW := rfc_code_length _ _ _ ED).
          replace (N.of_nat (List.length lw) + N.of_nat (List.length dw) + eb <? 256) with true by lia.
          eexists. eexists. split; [reflexivity|]. split.
          -- intro out. apply writes_bind; [apply WR|]. eapply (writes_dist dl (Some dinv) HD); try eassumption; lia.
          -- rewrite !app_length, !lsb_length, (extra_sweep r (conj OD OR) x) by (rewrite RR; exact E2). lia.
        * right. split; [reflexivity|]. intros out w Hw. destruct (WR out w Hw) as (w1 & EW & _). unfold bind at 1. rewrite EW.
          unfold encode_distance, bind, lift. rewrite E3. unfold get_idx. unfold dinv_of in HD. rewrite HD by lia. rewrite ED. discriminate.
      + right. split; [reflexivity|]. intros out w Hw. destruct (panics_run ll inv HI _ _ _ E1 E2 ltac:(lia) EL out w Hw) as (msg & w' & EP).
        unfold bind. rewrite EP. discriminate.
  Qed.

  Lemma codes_cost codes costs : Forall code_ok codes -> Forall2 (fun c n => Lengths_length ls c = Ok (Some n)) codes costs ->
    exists w, (forall out, writes out (compressed_codes_loop inv (Some dinv) codes) w)
      /\ N.of_nat (List.length w) = sum_list costs + sum_list (map length_extra_bits codes).
  Proof.
    intros OK F. induction F as [|c n codes costs EC F IH].
    - exists []. split; [intro; apply writes_ret|reflexivity].
    - inversion OK as [|? ? OK1 OK2]; subst. destruct (IH OK2) as (w & W & LW). destruct (code_cost c OK1) as [(n' & w1 & E1 & W1 & L1)|[E1 _]]; [|congruence].
      assert (n' = n) as -> by congruence. exists (w1 ++ w). split; [intro out; cbn [compressed_codes_loop]; apply writes_bind; auto|].
      rewrite app_length. unfold sum_list in *. cbn [map fold_right]. lia.
  Qed.

  Lemma codes_inexpressible codes c : Forall code_ok codes -> In c codes -> Lengths_length ls c = Ok None ->
    forall out w, wst out w -> fst (compressed_codes_loop inv (Some dinv) codes w) <> Ok tt.
  Proof.
    intros OK HC EN. induction codes as [|c0 codes IH]; [destruct HC|]. intros out w Hw. inversion OK as [|? ? OK1 OK2]; subst. cbn [compressed_codes_loop].
    destruct (code_cost c0 OK1) as [(n & w1 & E1 & W1 & _)|[_ F]].
    - destruct HC as [->|HC]; [congruence|]. destruct (W1 out w Hw) as (w' & EW & HW). unfold bind. rewrite EW. eapply IH; eauto.
    - specialize (F out w Hw). unfold bind. destruct (compressed_code inv (Some dinv) c0 w) as [[[]| | |] w']; cbn [fst] in *; congruence.
  Qed.
End Cost.

Lemma bind_lift_ok {S A B} (x : outcome A) a (g : A -> M S B) s : x = Ok a -> bind (lift x) g s = g a s.
Proof. intros ->. reflexivity. Qed.

Lemma C51_lemma : forall ll dl lt dt ls, (List.length ll <= 288)%nat -> (List.length dl <= 288)%nat ->
  tree_new ll = Ok lt -> tree_new dl = Ok dt -> Lengths_new lt dt = Ok ls ->
  (forall c, code_ok c -> exists o, Lengths_length ls c = Ok o)
  /\ (forall codes costs eob, Forall code_ok codes -> rfc_code ll 256 = Some eob ->
        Forall2 (fun c n => Lengths_length ls c = Ok (Some n)) codes costs ->
        exists w, compressed_codes lt (Some dt) codes (bw_new new_sink) = (Ok tt, w)
          /\ bits_out w = sum_list costs + sum_list (map length_extra_bits codes) + N.of_nat (List.length eob))
  /\ (forall codes c, Forall code_ok codes -> In c codes -> Lengths_length ls c = Ok None ->
        fst (compressed_codes lt (Some dt) codes (bw_new new_sink)) <> Ok tt).
Proof.
  intros ll dl lt dt ls HLL HDL HLT HDT HLS.
  destruct (tree_invert_spec ll lt HLT HLL) as (inv & E1 & E2 & E3). destruct (tree_invert_spec dl dt HDT HDL) as (dinv & D1 & D2 & D3).
  assert (IV : inv_of ll inv) by (split; assumption). assert (DV : dinv_of dl (Some dinv)) by (intros s Hs; apply D3; lia).
  assert (HC := code_cost ll dl lt dt ls HLT HLL HDT HDL HLS inv dinv IV DV).
  split; [|split].
  - intros c OK. destruct (HC c OK) as [(n & _ & E & _)|[E _]]; eauto.
  - intros codes costs eob OK EOB F. destruct (codes_cost ll dl lt dt ls HLT HLL HDT HDL HLS inv dinv IV DV codes costs OK F) as (w & W & LW).
    assert (WA : writes [] (compressed_codes lt (Some dt) codes) (w ++ eob)).
    { unfold compressed_codes. eapply writes_lift_ok; [exact E1|]. eapply writes_lift_ok; [unfold invert_opt; rewrite D1; reflexivity|].
      apply writes_assert; [rewrite E2; reflexivity|]. apply writes_bind; [apply W|].
      eapply writes_lift_ok; [apply (get_inv ll inv 256 IV); lia|]. rewrite EOB. cbn [opt_vec]. eapply writes_lift_ok; [reflexivity|]. apply writes_vec. }
    destruct (WA _ wst_new) as (st & EW & (_ & pend & _ & EC & _ & EB)). exists st. split; [exact EW|].
    unfold bits_out. rewrite EC. cbn [bitvec_of bv_len]. apply (f_equal (@List.length bool)) in EB. cbn [app] in EB. rewrite !app_length, bits_of_bytes_length in EB. lia.
  - intros codes c OK HI EN. assert (X := codes_inexpressible ll dl lt dt ls HLT HLL HDT HDL HLS inv dinv IV DV codes c OK HI EN _ _ wst_new).
    unfold compressed_codes. rewrite (bind_lift_ok _ _ _ _ E1). assert (E4 : invert_opt (Some dt) = Ok (Some dinv)) by (unfold invert_opt; now rewrite D1).
    rewrite (bind_lift_ok _ _ _ _ E4). unfold assert_. rewrite E2.
    change (if (256 <? 288)%nat then ret tt else panic "assert!(length_tree.len() > 256)") with (ret (S := bit_writer) tt).
    unfold ret, bind at 1. unfold bind at 1.
    destruct (compressed_codes_loop inv (Some dinv) codes (bw_new new_sink)) as [[[]| | |] w']; cbn [fst] in *; congruence.
Qed.

Lemma C51_lemma_refuted : exists lt dt ls n w eob,
  FIXED_LENGTH_TREE = Ok lt /\ FIXED_DISTANCE_TREE = Ok dt /\ Lengths_new lt dt = Ok ls
  /\ Lengths_length ls (Reference (mkRef 1 8)) = Ok (Some n)
  /\ compressed_codes lt (Some dt) [Reference (mkRef 1 8)] (bw_new new_sink) = (Ok tt, w)
  /\ rfc_code fixed_ll 256 = Some eob
  /\ bits_out w = n + 1 + N.of_nat (List.length eob).
Proof.
  eexists. eexists. eexists. eexists. eexists. eexists. split; [vm_compute; reflexivity|]. split; [vm_compute; reflexivity|]. split; [vm_compute; reflexivity|].
  split; [vm_compute; reflexivity|]. split; [vm_compute; reflexivity|]. split; [vm_compute; reflexivity|]. vm_compute. reflexivity.
Qed.
