(** Proofs of the C86 statements. *)
From Verif Require Import Base M_bit M_lib M_all_refs M_technique M_trace M_arith M_arith_search Spec Clients Clients_write Clients_arith L_arith L_arith_search.
From Coq Require Import ZArith ZifyBool ZifyNat ZifyN.
Ltac Zify.zify_post_hook ::= Z.div_mod_to_equations.
Local Open Scope N_scope.
Local Open Scope model_scope.

Lemma fits_small preroll data : data_fits preroll data -> small (List.length preroll + List.length data).
Proof. unfold data_fits, small. w64. Qed.
Lemma values_small cs : Forall code_value cs -> Forall code_small cs.
Proof. apply Forall_impl. intros [b|r]; cbn [code_value code_small]; auto. Qed.
Lemma hints_small tr : Forall hint_value tr -> Forall hint_small tr.
Proof. apply Forall_impl. intros [| |r]; cbn [hint_value hint_small]; auto. Qed.

Lemma C86_lemma_try : forall bd level preroll data codes, data_fits preroll data -> Forall code_value codes ->
  mc_try_gzip bd level preroll data codes = try_gzip level preroll data codes.
Proof. intros bd level preroll data codes HD HC. apply try_gzip_ok; [now apply fits_small|now apply values_small]. Qed.

Lemma refs_small preroll data limit refs : data_fits preroll data -> with_sixteen preroll data limit = Ok refs -> small (ar_data_len refs).
Proof. intros HD E. destruct (sixteen_fields _ _ _ _ E) as [EP ED]. unfold ar_data_len. rewrite EP, ED. now apply fits_small. Qed.

Lemma C86_lemma_trace : forall bd config preroll data limit refs codes hints, data_fits preroll data -> Forall code_value codes -> Forall hint_value hints ->
  with_sixteen preroll data limit = Ok refs ->
  mc_with_sixteen bd preroll data limit = Ok refs
  /\ mc_trace bd codes (mkTechnique config refs) = trace codes (mkTechnique config refs)
  /\ mc_restore bd hints (mkTechnique config refs) = restore hints (mkTechnique config refs)
  /\ mc_validate bd codes (mkTechnique config refs) = validate codes (mkTechnique config refs).
Proof.
  intros bd config preroll data limit refs codes hints HD HC HH E. pose proof (refs_small _ _ _ _ HD E) as HS.
  split; [rewrite sixteen_ok; [exact E|now apply fits_small]|]. split; [apply trace_ok; [exact HS|now apply values_small]|].
  split; [apply restore_ok; [exact HS|now apply hints_small]|]. apply validate_ok; [exact HS|now apply values_small].
Qed.

Lemma C86_lemma_format : forall bd hints bytes e, Forall hint_value hints -> bytes_ok bytes ->
  mc_st_write bd hints = st_write hints /\ mc_st_read bd (mkSource bytes e) = st_read (mkSource bytes e).
Proof. intros bd hints bytes e HH HB. split; [apply st_write_ok; now apply hints_small|now apply st_read_ok]. Qed.

Lemma C86_lemma_at : forall bd preroll data limit refs pos hidden, data_fits preroll data -> with_sixteen preroll data limit = Ok refs ->
  Forall (fun h => snd h < 65536) hidden -> N.of_nat pos + 2 < 2 ^ 64 ->
  mc_at bd refs pos hidden = ar_at refs pos hidden.
Proof. intros bd preroll data limit refs pos hidden HD E HH HP. apply at_ok; [exact (refs_small _ _ _ _ HD E)|exact HP|exact HH]. Qed.

Lemma C86_lemma_at_end : forall bd preroll data limit refs pos hidden, data_fits preroll data -> (2 <= List.length preroll + List.length data)%nat ->
  with_sixteen preroll data limit = Ok refs -> 2 ^ 64 <= N.of_nat pos + 2 < 2 ^ 64 + 2 ->
  (exists m, mc_at bd refs pos hidden = Panic m) /\ ar_at refs pos hidden = Ok None.
Proof.
  intros bd preroll data limit refs pos hidden HD H2 E HP. pose proof (refs_small _ _ _ _ HD E) as HS. destruct (sixteen_fields _ _ _ _ E) as [EP ED].
  assert (HL : ar_data_len refs = (List.length preroll + List.length data)%nat) by (unfold ar_data_len; now rewrite EP, ED). unfold small in HS. split.
  - unfold mc_at, mc_key, addp, add. change (N.of_nat 2) with 2. destruct (N.ltb_spec (N.of_nat pos + 2) (2 ^ 64)); [lia|].
    destruct bd; cbn [overflow obind]; [eexists; reflexivity|]. rewrite len_ok by exact HS. cbn [obind].
    assert (HW : (N.of_nat pos + 2) mod 2 ^ 64 < 2).
    { replace (N.of_nat pos + 2) with (N.of_nat pos + 2 - 2 ^ 64 + 1 * 2 ^ 64) by lia. rewrite N.mod_add by discriminate. rewrite N.mod_small; lia. }
    destruct (Nat.ltb_spec (N.to_nat ((N.of_nat pos + 2) mod 2 ^ 64)) (ar_data_len refs)); [|lia].
    rewrite get_ok. unfold ar_get. unfold ar_data_len in HL, HS. destruct (Nat.ltb_spec pos (List.length (ar_preroll refs))); [w64|].
    unfold get_idx. assert (EN : nth_error (ar_data refs) (pos - List.length (ar_preroll refs)) = None) by (apply nth_error_None; w64).
    rewrite EN. cbn [obind]. eexists. reflexivity.
  - unfold ar_at, ar_key. destruct (Nat.ltb_spec (pos + 2) (ar_data_len refs)); [w64|reflexivity].
Qed.
