(** Property C100: guesses alone make a compressor (lib/src/trace.rs, lib/src/technique.rs, lib/src/serialise.rs). *)
From Verif Require Import Base M_bit M_lib M_gzip M_parse M_serialise M_all_refs M_technique M_trace M_rezippers Spec Clients Clients_members Clients_compress
  L_P_compress.
Local Open Scope N_scope.

(** C100: for every configuration, search limit and division of a content into pieces, restoring the pieces from hints that
    all say Correct and writing the codes as fixed blocks gives, with a header and the checksum and length, a gzip member
    that cat prints as the content; the blocks take at most 9 bits per byte, 10 per piece and the padding. *)
Theorem C100_compressor : forall config limit header pieces, gzip_header header -> bytes_ok header -> pieces <> [] -> Forall bytes_ok pieces ->
  let content := List.concat pieces in
  exists css stream file, guess_pieces config limit [] pieces = Ok css /\ compress_all (map FixedHuffman css) = Ok stream
    /\ file = header ++ stream ++ le32_bytes (crc32 content) ++ le32_bytes (N.of_nat (List.length content) mod 2 ^ 32)
    /\ member content file /\ bytes_ok file
    /\ (forall e, cat_run (mkSource file e) new_sink = (Ok tt, mkSink content None))
    /\ (8 * List.length stream <= 9 * List.length content + 10 * List.length pieces + 7)%nat.
Proof. exact C100_lemma. Qed.
Print Assumptions C100_compressor.

Definition compress_header : list N := [31; 139; 8; 0; 0; 0; 0; 0; 0; 3].
Example C100_case : exists config, Config_gzip 9 = Ok config /\ gzip_header compress_header /\ bytes_ok compress_header
  /\ guess_pieces config 65535 [] [[0; 97; 98; 99; 97; 98; 99]; []; [97; 98; 99; 97; 98; 99; 97; 98]]
     = Ok [[Literal 0; Literal 97; Literal 98; Literal 99; Reference (mkRef 3 0)]; []; [Reference (mkRef 3 5)]].
Proof.
  eexists. split; [vm_compute; reflexivity|]. split; [exists 0, [0; 0; 0; 0; 0; 3], [], [], [], []; repeat split|]. split; [repeat constructor|].
  vm_compute. reflexivity.
Qed.

(** C100: the blocks need no other hints: tracing such codes gives hints that are stored in two bytes for each 32767
    codes. *)
Theorem C100_no_hints : forall config preroll data limit refs n codes, bytes_ok preroll -> bytes_ok data -> with_sixteen preroll data limit = Ok refs ->
  restore (repeat Correct n) (mkTechnique config refs) = Ok codes ->
  exists hints bytes, trace codes (mkTechnique config refs) = Ok hints /\ st_write hints = Ok bytes
    /\ N.of_nat (List.length bytes) = 2 * ((N.of_nat (List.length codes) + 32766) / 32767).
Proof. exact C100_lemma_hints. Qed.
Print Assumptions C100_no_hints.

Example C100_hints_case :
  match Config_gzip 9, with_sixteen [0; 97; 98; 99] [97; 98; 99; 7] 65535 with
  | Ok config, Ok refs => restore (repeat Correct 4) (mkTechnique config refs) = Ok [Reference (mkRef 3 0); Literal 7]
  | _, _ => False
  end.
Proof. vm_compute. reflexivity. Qed.

(** C100: the bound is reached, by every content of bytes from 144 on, if the search is given no candidates. *)
Theorem C100_bound_is_reached : forall config pieces, pieces <> [] -> Forall (Forall (fun b => 144 <= b < 256)) pieces ->
  exists css stream, guess_pieces config 0 [] pieces = Ok css /\ compress_all (map FixedHuffman css) = Ok stream
    /\ (9 * List.length (List.concat pieces) + 10 * List.length pieces <= 8 * List.length stream)%nat.
Proof. exact C100_lemma_reached. Qed.
Print Assumptions C100_bound_is_reached.

(** It is also reached at level 9, if nothing in the content repeats. *)
Example C100_reached_case : Forall (Forall (fun b => 144 <= b < 256)) [map N.of_nat (seq 144 50)]
  /\ match Config_gzip 9 with
     | Ok config => match guess_pieces config 65535 [] [map N.of_nat (seq 144 50)] with
                    | Ok css => match compress_all (map FixedHuffman css) with
                                | Ok stream => List.length stream = ((9 * 50 + 10 * 1 + 7) / 8)%nat
                                | _ => False end
                    | _ => False end
     | _ => False end.
Proof.
  split; [|vm_compute; reflexivity]. constructor; [|constructor]. apply Forall_forall. intros x HX. apply in_map_iff in HX as (k & <- & HK).
  apply in_seq in HK. lia.
Qed.
