(** Property C77: what the tracing example prints (lib/examples/trace.rs). *)
From Verif Require Import Base M_bit M_lib M_circles M_gzip M_parse M_serialise M_all_refs M_technique M_trace M_example
  Spec Clients Clients_tracing Clients_restore Clients_listing L_P_parse L_P_listing.
Local Open Scope N_scope.

(** C77: whatever the example prints for a file that decompresses is the listing of the file's blocks. *)
Theorem C77_listing : forall file e header stream trailer blocks lines, bytes_ok file ->
  file = header ++ stream ++ trailer -> gzip_header header -> stream_bits 0 blocks (bits_of_bytes stream) ->
  (exists data, encodes [] data (flat_map block_codes blocks)) ->
  example_run (mkSource file e) = (lines, Ok tt) -> listing 0 [] blocks lines.
Proof. exact C77_lemma. Qed.
Print Assumptions C77_listing.

(** The text aaaaabab as literals only, which gzip would not choose, and a stored block of two bytes. *)
Definition listed : list Block := [FixedHuffman [Literal 97; Literal 97; Literal 97; Literal 97; Literal 97; Literal 98; Literal 97; Literal 98]; Uncompressed [1; 2]].
Definition listed_header : list N := [31; 139; 8; 0; 1; 2; 3; 4; 0; 3].
Definition listed_stream : list N := [74; 76; 76; 76; 76; 76; 74; 76; 2; 4; 2; 0; 253; 255; 1; 2].
Example C77_case : bytes_ok (listed_header ++ listed_stream ++ [])
  /\ gzip_header listed_header /\ stream_bits 0 listed (bits_of_bytes listed_stream)
  /\ encodes [] [97; 97; 97; 97; 97; 98; 97; 98; 1; 2] (flat_map block_codes listed)
  /\ filter (fun l => match l with XGuesser _ _ => false | _ => true end) (fst (example_run (mkSource (listed_header ++ listed_stream) UnexpectedEof))) =
       [XBlock 0; XFixed;
        XSize "gzip --fast" 6; XHint 2 [97; 97; 97; 97; 97; 98; 97] [Reference (mkRef 1 0)] ActuallyLiteral; XBlank;
        XSize "gzip [--default]" 6; XHint 2 [97; 97; 97; 97; 97; 98; 97] [Reference (mkRef 1 0)] ActuallyLiteral; XBlank;
        XBlock 1; XStored 2]
  /\ snd (example_run (mkSource (listed_header ++ listed_stream) UnexpectedEof)) = Ok tt.
Proof.
  split; [repeat constructor|]. split.
  { exists 0, [1; 2; 3; 4; 0; 3], [], [], [], []. repeat split. }
  split.
  { destruct (proj1 (C23_lemma listed_stream UnexpectedEof listed [] ltac:(repeat constructor))) as (used & E & H).
    - eexists. split; vm_compute; reflexivity.
    - rewrite app_nil_r in E. rewrite E. exact H. }
  split; [vm_compute; reflexivity|].
  split; vm_compute; reflexivity.
Qed.
