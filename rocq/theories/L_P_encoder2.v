(** Proofs: the documented candidate limit fails at every level below 4 (C60). *)
From Verif Require Import Base M_bit M_lib M_all_refs M_technique M_trace Spec Spec_encoder Clients Clients_encoder L_P_encoder.
From Coq Require Import ZArith ZifyBool ZifyNat ZifyN.
Local Open Scope N_scope.
Local Open Scope model_scope.

Lemma C60_lemma_low_refuted : forall level, 1 <= level <= 3 -> exists data codes hints,
  bytes_ok data /\ Forall code_ok codes /\ encodes [] data codes
  /\ documented_greedy data level 0 codes
  /\ try_gzip level [] data codes = Ok hints /\ ~ (forall h, In h hints -> h = Correct).
Proof.
  intros level HL. assert (level = 1 \/ 2 <= level) as [->|HH] by lia.
  - (* four other triples with the same hash *)
    set (d := [0; 97;98;99;90; 97;99;67;1; 97;96;35;2; 97;97;3;3; 97;102;227;4; 97;98;99;90]).
    set (cs := [Literal 0; Literal 97; Literal 98; Literal 99; Literal 90; Literal 97; Literal 99; Literal 67; Literal 1;
                Literal 97; Literal 96; Literal 35; Literal 2; Literal 97; Literal 97; Literal 3; Literal 3;
                Literal 97; Literal 102; Literal 227; Literal 4; Reference (mkRef 20 1)]).
    assert (B : bytes_ok d) by (repeat constructor; lia).
    exists d, cs. eexists. split; [exact B|].
    split; [repeat constructor; unfold ref_ok; cbn; lia|]. split; [vm_compute; reflexivity|].
    split; [|split; [vm_compute; reflexivity|]].
    + apply (documented_run 1 d 22 cs B). vm_compute. reflexivity.
    + intro H. specialize (H (Actually (mkRef 20 1))). cbn [In] in H. assert (X : Actually (mkRef 20 1) = Correct) by (apply H; tauto). discriminate.
  - set (d := [0; 97;98;99;90; 97;98;99;1; 97;98;99;2; 97;98;99;3; 97;98;99;4; 97;98;99;5; 97;98;99;6; 97;98;99;90]).
    set (cs := [Literal 0; Literal 97; Literal 98; Literal 99; Literal 90; Reference (mkRef 4 0); Literal 1; Reference (mkRef 4 0);
              Literal 2; Reference (mkRef 4 0); Literal 3; Reference (mkRef 4 0); Literal 4; Reference (mkRef 4 0);
              Literal 5; Reference (mkRef 4 0); Literal 6; Reference (mkRef 28 1)]).
    assert (B : bytes_ok d) by (repeat constructor; lia).
    assert (level = 2 \/ level = 3) as [->| ->] by lia.
    + exists d, cs. eexists. split; [exact B|].
      split; [repeat constructor; unfold ref_ok; cbn; lia|]. split; [vm_compute; reflexivity|].
      split; [|split; [vm_compute; reflexivity|]].
      * apply (documented_run 2 d 18 cs B). vm_compute. reflexivity.
      * intro H. specialize (H (Actually (mkRef 28 1))). cbn [In] in H. assert (X : Actually (mkRef 28 1) = Correct) by (apply H; tauto). discriminate.
    + exists d, cs. eexists. split; [exact B|].
      split; [repeat constructor; unfold ref_ok; cbn; lia|]. split; [vm_compute; reflexivity|].
      split; [|split; [vm_compute; reflexivity|]].
      * apply (documented_run 3 d 18 cs B). vm_compute. reflexivity.
      * intro H. specialize (H (Actually (mkRef 28 1))). cbn [In] in H. assert (X : Actually (mkRef 28 1) = Correct) by (apply H; tauto). discriminate.
Qed.
