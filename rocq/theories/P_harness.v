(** Property C90: the check the regression tests run (lib/tests/tracing_size.rs). *)
From Verif Require Import Base M_bit M_lib M_parse M_all_refs M_technique M_trace M_fuzz M_rezippers M_harness Spec Spec_encoder
  Clients_verdict Clients_harness L_P_harness.
Local Open Scope N_scope.

(** C90: the check passes exactly if the file is a gzip header and a complete stream of compressed blocks, each with the
    codes the greedy encoder of that level chooses for what it decodes to. *)
Theorem C90_passes : forall level file, bytes_ok file ->
  (harness_try_gzip level file = Ok tt <-> exists blocks, file_ends file blocks Complete /\ reproduced level [] blocks).
Proof. exact C90_lemma. Qed.
Print Assumptions C90_passes.

(** C90: for any bytes it either passes or panics. *)
Theorem C90_ends : forall level file, bytes_ok file -> harness_try_gzip level file = Ok tt \/ exists m, harness_try_gzip level file = Panic m.
Proof. exact C90_lemma_ends. Qed.
Print Assumptions C90_ends.

(** C90: at every level, and for any data in any number of blocks, some file passes. *)
Theorem C90_satisfiable : forall level chunks, 1 <= level <= 9 -> chunks <> [] -> Forall bytes_ok chunks ->
  exists file, bytes_ok file /\ harness_try_gzip level file = Ok tt
    /\ cat_run (mkSource file UnexpectedEof) new_sink = (Ok tt, mkSink (List.concat chunks) None)
    /\ exists codes, file_ends file (map FixedHuffman codes) Complete /\ List.length codes = List.length chunks.
Proof. exact C90_lemma_exists. Qed.
Print Assumptions C90_satisfiable.

(** A file of two blocks, [1 2 3 4 5] and [9 2 3 4 6]; the match of the second block is in the first one. *)
Definition C90_file := [31; 139; 8; 0; 0; 0; 0; 0; 4; 3; 98; 100; 98; 102; 97; 5; 140; 19; 72; 176; 1; 0].

Example C90_case : bytes_ok C90_file /\ harness_try_gzip 1 C90_file = Ok tt
  /\ exists blocks, file_ends C90_file blocks Complete /\ reproduced 1 [] blocks.
Proof.
  assert (B : bytes_ok C90_file) by repeat constructor. split; [exact B|]. assert (E : harness_try_gzip 1 C90_file = Ok tt) by (vm_compute; reflexivity).
  split; [exact E|]. now apply C90_passes.
Qed.

(** A level that does not exist, and a file that ends too early, do not pass. *)
Example C90_fails_case : harness_try_gzip 0 C90_file = Panic "gzip levels are between 1 and 9, inclusive"
  /\ harness_try_gzip 1 (firstn 21 C90_file) = Panic "called `Result::unwrap()` on an `Err` value"
  /\ (forall blocks, file_ends (firstn 21 C90_file) blocks Complete -> ~ reproduced 1 [] blocks).
Proof.
  split; [vm_compute; reflexivity|]. assert (E : harness_try_gzip 1 (firstn 21 C90_file) = Panic "called `Result::unwrap()` on an `Err` value") by (vm_compute; reflexivity).
  split; [exact E|]. intros blocks H R. assert (B : bytes_ok (firstn 21 C90_file)) by repeat constructor.
  assert (X := proj2 (C90_passes 1 _ B) (ex_intro _ blocks (conj H R))). rewrite E in X. discriminate X.
Qed.

Example C90_satisfiable_case : 1 <= 9 <= 9 /\ [[1; 2; 3]; []; [4]] <> [] /\ Forall bytes_ok [[1; 2; 3]; []; [4]].
Proof. split; [lia|]. split; [discriminate|]. repeat constructor. Qed.
