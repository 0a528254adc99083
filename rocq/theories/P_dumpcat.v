(** Property C108: a dump tells what cat will do (rezippers/src/dump.rs, rezippers/src/cat.rs). *)
From Verif Require Import Base M_bit M_lib M_circles M_gzip M_parse M_serialise M_rezippers M_dump M_text Spec Clients Clients_file Clients_verdict L_P_dumpcat.
Local Open Scope N_scope.

(** C108: of two files with the same dump, cat makes the same: the same result, and output of the same length; without stored
    bytes in the dump, the same output. *)
Theorem C108_dump_tells : forall file file' e room, bytes_ok file -> bytes_ok file' -> dump_run (mkSource file e) = dump_run (mkSource file' e) ->
  exists o out out', cat_run (mkSource file e) (sink_with room) = (o, out) /\ cat_run (mkSource file' e) (sink_with room) = (o, out')
    /\ List.length (written out) = List.length (written out')
    /\ ((forall n, In (DStored n) (fst (dump_run (mkSource file e))) -> n = 0%nat) -> written out = written out').
Proof. exact C108_lemma_result. Qed.
Print Assumptions C108_dump_tells.

(** A stored block of two bytes and then "a", in two files with different bytes and different headers; and "a" in two
    files with different headers. *)
Definition bare_header : list N := [31; 139; 8; 0; 0; 0; 0; 0; 0; 3].
Definition named_header : list N := [31; 139; 8; 8; 1; 2; 3; 4; 0; 3; 120; 0].
Example C108_case : let e := UnexpectedEof in let run file := cat_run (mkSource file e) new_sink in
  let file := bare_header ++ [0; 2; 0; 253; 255; 97; 98; 75; 4; 0] in let file' := named_header ++ [0; 2; 0; 253; 255; 99; 100; 75; 4; 0] in
  dump_run (mkSource file e) = dump_run (mkSource file' e)
  /\ (fst (run file), written (snd (run file))) = (Ok tt, [97; 98; 97]) /\ (fst (run file'), written (snd (run file'))) = (Ok tt, [99; 100; 97])
  /\ dump_run (mkSource (bare_header ++ [75; 4; 0]) e) = dump_run (mkSource (named_header ++ [75; 4; 0; 7]) e)
  /\ fst (dump_run (mkSource (bare_header ++ [75; 4; 0]) e)) = listing 0 [FixedHuffman [Literal 97]]
  /\ written (snd (run (bare_header ++ [75; 4; 0]))) = [97] /\ bytes_ok file.
Proof. cbv zeta. repeat (split; [vm_compute; reflexivity|]). repeat constructor. Qed.
