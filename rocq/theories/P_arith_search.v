(** Property C86: searching and tracing in builds with and without overflow checks (lib/src/all_refs.rs, back_map.rs,
    obscure.rs, iters.rs, picker.rs, technique.rs, lookahead.rs, trace.rs, serialise_trace.rs, tracer.rs). *)
From Verif Require Import Base M_bit M_lib M_all_refs M_technique M_trace M_arith M_arith_search Spec Clients Clients_write Clients_arith L_P_arith_search.
Local Open Scope N_scope.

(** C86: in either build a block is traced as the model proper says, whatever the level, the data and the codes. *)
Theorem C86_try : forall bd level preroll data codes, data_fits preroll data -> Forall code_value codes ->
  mc_try_gzip bd level preroll data codes = try_gzip level preroll data codes.
Proof. exact C86_lemma_try. Qed.
Print Assumptions C86_try.

(** C86: so it is with any configuration, and hints, even wrong ones, are followed as the model proper says. *)
Theorem C86_trace : forall bd config preroll data limit refs codes hints, data_fits preroll data -> Forall code_value codes -> Forall hint_value hints ->
  with_sixteen preroll data limit = Ok refs ->
  mc_with_sixteen bd preroll data limit = Ok refs
  /\ mc_trace bd codes (mkTechnique config refs) = trace codes (mkTechnique config refs)
  /\ mc_restore bd hints (mkTechnique config refs) = restore hints (mkTechnique config refs)
  /\ mc_validate bd codes (mkTechnique config refs) = validate codes (mkTechnique config refs).
Proof. exact C86_lemma_trace. Qed.
Print Assumptions C86_trace.

(** C86: hints are written and read as the model proper says. *)
Theorem C86_format : forall bd hints bytes e, Forall hint_value hints -> bytes_ok bytes ->
  mc_st_write bd hints = st_write hints /\ mc_st_read bd (mkSource bytes e) = st_read (mkSource bytes e).
Proof. exact C86_lemma_format. Qed.
Print Assumptions C86_format.

(** C86: in either build a search finds what the model proper says, whatever the position and the hidden stretches. *)
Theorem C86_at : forall bd preroll data limit refs pos hidden, data_fits preroll data -> with_sixteen preroll data limit = Ok refs ->
  Forall (fun h => snd h < 65536) hidden -> N.of_nat pos + 2 < 2 ^ 64 ->
  mc_at bd refs pos hidden = ar_at refs pos hidden.
Proof. exact C86_lemma_at. Qed.
Print Assumptions C86_at.

(** C86: the two largest positions are the one difference: both builds panic, where there is nothing to be found. *)
Theorem C86_at_end : forall bd preroll data limit refs pos hidden, data_fits preroll data -> (2 <= List.length preroll + List.length data)%nat ->
  with_sixteen preroll data limit = Ok refs -> 2 ^ 64 <= N.of_nat pos + 2 < 2 ^ 64 + 2 ->
  (exists m, mc_at bd refs pos hidden = Panic m) /\ ar_at refs pos hidden = Ok None.
Proof. exact C86_lemma_at_end. Qed.
Print Assumptions C86_at_end.

Definition some_data : list N := [97; 98; 99; 97; 98; 99; 97; 98; 99; 97; 98; 99; 100].

Example C86_case : data_fits [] some_data
  /\ Forall code_value [Literal 97; Literal 98; Literal 99; Literal 97; Reference (mkRef 3 5); Literal 100]
  /\ mc_try_gzip Release 1 [] some_data [Literal 97; Literal 98; Literal 99; Literal 97; Reference (mkRef 3 5); Literal 100]
     = Ok [Correct; Correct; Correct; Correct; Correct; Correct]
  /\ (exists refs, with_sixteen [] some_data 4 = Ok refs
      /\ mc_at Release refs 4 [] = Ok (Some [mkRef 3 5])).
Proof.
  split; [reflexivity|]. split; [repeat constructor|]. split; [vm_compute; reflexivity|].
  destruct (with_sixteen [] some_data 4) as [refs| | |] eqn:E; [|vm_compute in E; discriminate E..].
  exists refs. split; [reflexivity|]. apply (f_equal (fun o => match o with Ok r => mc_at Release r 4 [] | _ => Diverge end)) in E.
  cbv beta match in E. rewrite <- E. vm_compute. reflexivity.
Qed.
