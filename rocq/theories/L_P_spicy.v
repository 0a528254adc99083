(** Proofs for the two remaining configurations (C58): [spicy] and [gzip_16_default]. *)
From Verif Require Import Base M_bit M_lib M_all_refs M_technique M_trace Spec Spec_encoder Clients_encoder L_P_encoder.
Local Open Scope N_scope.
Local Open Scope model_scope.

Lemma spicy_is c : Config_spicy = Ok c -> c = mkConfig false LThreeZip DropFarThrees (wams_lookahead_ 258 (N.to_nat 4096) 32 258).
Proof. unfold Config_spicy, get_idx, CONFIGURATIONS. cbn [nth_error obind]. intro E. injection E as <-. reflexivity. Qed.

Lemma C58_lemma_spicy : forall config preroll data limit refs codes,
  Config_spicy = Ok config -> bytes_ok preroll -> bytes_ok data ->
  with_sixteen preroll data limit = Ok refs -> encodes preroll data codes ->
  (trace codes (mkTechnique config refs) = Ok (repeat Correct (List.length codes))
   <-> encoder (preroll ++ data) None
         (fun runs => three_choice (preroll ++ data)
            (match_at (preroll ++ data) (mkSearch (N.to_nat limit) (N.to_nat 4096) 258 true) runs))
         [] (List.length preroll) codes).
Proof.
  intros config preroll data limit refs codes EC B1 B2 EW HE.
  rewrite (C58_lemma_trace config preroll data limit refs codes B1 B2 EW HE).
  apply spicy_is in EC. rewrite EC. apply iff_refl.
Qed.

Lemma C58_lemma_default : forall config preroll data refs codes,
  Config_gzip_16_default = Ok config -> bytes_ok preroll -> bytes_ok data ->
  with_sixteen preroll data 65535 = Ok refs -> encodes preroll data codes ->
  (trace codes (mkTechnique config refs) = Ok (repeat Correct (List.length codes))
   <-> gzip_greedy (preroll ++ data) 6 (List.length preroll) codes).
Proof.
  intros config preroll data refs codes EC B1 B2 EW HE.
  rewrite (C58_lemma_trace config preroll data 65535 refs codes B1 B2 EW HE).
  assert (HI : insert_only_below_length (cfg_wams config) = None).
  { unfold Config_gzip_16_default, Config_gzip, get_idx in EC. cbn -[N.to_nat] in EC. change (N.to_nat 5) with 5%nat in EC. cbn [nth_error CONFIGURATIONS obind] in EC.
    injection EC as <-. reflexivity. }
  assert (HG := gzip_config 6 config EC). cbv zeta in HG. rewrite HI in HG. apply HG.
Qed.
