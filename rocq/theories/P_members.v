(** Property C82: the trailer and the further members of a gzip file (rezippers/src/cat.rs). *)
From Verif Require Import Base M_bit M_lib M_gzip M_parse M_rezippers Spec Clients Clients_members L_P_members.
Local Open Scope N_scope.

(** C82 is false of the code: a file with a damaged checksum is accepted. *)
Theorem C82_checksum_refuted : exists content body trailer damaged, member content (body ++ trailer)
  /\ List.length damaged = List.length trailer /\ List.length trailer = 8%nat /\ damaged <> trailer /\ bytes_ok (body ++ damaged)
  /\ forall e, cat_run (mkSource (body ++ damaged) e) new_sink = (Ok tt, mkSink content None).
Proof. exact C82_lemma_refuted_checksum. Qed.
Print Assumptions C82_checksum_refuted.

(** C82 is false of the code: of a file with two members only the first is decompressed. *)
Theorem C82_members_refuted : exists content file more, members (content ++ more) file /\ more <> [] /\ bytes_ok file
  /\ forall e, cat_run (mkSource file e) new_sink = (Ok tt, mkSink content None).
Proof. exact C82_lemma_refuted_members. Qed.
Print Assumptions C82_members_refuted.

(** C82, what holds: cat decompresses the first member, whatever follows it.  Missing: the members after it. *)
Theorem C82_first_member_partial : forall content file rest e, bytes_ok (file ++ rest) -> member content file ->
  cat_run (mkSource (file ++ rest) e) new_sink = (Ok tt, mkSink content None).
Proof. exact C82_lemma_first. Qed.
Print Assumptions C82_first_member_partial.

(** C82, what holds: the content comes out whatever is in place of the trailer.  Missing: the check. *)
Theorem C82_any_trailer_partial : forall header stream blocks content trailer e, bytes_ok (header ++ stream ++ trailer) ->
  gzip_header header -> stream_bits 0 blocks (bits_of_bytes stream) -> encodes [] content (flat_map block_codes blocks) ->
  cat_run (mkSource (header ++ stream ++ trailer) e) new_sink = (Ok tt, mkSink content None).
Proof. exact C82_lemma_trailer. Qed.
Print Assumptions C82_any_trailer_partial.

Example C82_case : member [1; 2; 3] ([31; 139; 8; 0; 0; 0; 0; 0; 4; 3] ++ [99; 100; 98; 6; 0] ++ [29; 128; 188; 85] ++ [3; 0; 0; 0])
  /\ cat_run (mkSource ([31; 139; 8; 0; 0; 0; 0; 0; 4; 3] ++ [99; 100; 98; 6; 0] ++ [29; 128; 188; 85] ++ [3; 0; 0; 0] ++ [255]) UnexpectedEof) new_sink = (Ok tt, mkSink [1; 2; 3] None).
Proof. split; [exact m_member|vm_compute; reflexivity]. Qed.
