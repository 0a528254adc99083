(** Proofs of C82. *)
From Verif Require Import Base M_bit M_lib M_circles M_gzip M_parse M_rezippers Spec Clients Clients_members L_bits L_P_gzip L_P_parse L_P_rez.
From Coq Require Import ZArith ZifyBool ZifyNat ZifyN.
Ltac Zify.zify_post_hook ::= Z.div_mod_to_equations.
Local Open Scope N_scope.
Local Open Scope model_scope.

Lemma C82_lemma_first : forall content file rest e, bytes_ok (file ++ rest) -> member content file ->
  cat_run (mkSource (file ++ rest) e) new_sink = (Ok tt, mkSink content None).
Proof.
  intros content file rest e HB (header & stream & blocks & EF & GH & SB & EN). apply C47_lemma; [exact HB|].
  exists header, stream, (le32_bytes (crc32 content) ++ le32_bytes (N.of_nat (List.length content) mod 2 ^ 32) ++ rest), blocks.
  split; [|now split]. rewrite EF, <- !app_assoc. reflexivity.
Qed.

Lemma C82_lemma_trailer : forall header stream blocks content trailer e, bytes_ok (header ++ stream ++ trailer) ->
  gzip_header header -> stream_bits 0 blocks (bits_of_bytes stream) -> encodes [] content (flat_map block_codes blocks) ->
  cat_run (mkSource (header ++ stream ++ trailer) e) new_sink = (Ok tt, mkSink content None).
Proof. intros header stream blocks content trailer e HB GH SB EN. apply C47_lemma; [exact HB|]. exists header, stream, trailer, blocks. auto. Qed.

Definition m_header : list N := [31; 139; 8; 0; 0; 0; 0; 0; 4; 3].
Definition m_stream : list N := [99; 100; 98; 6; 0].
Definition m_file : list N := m_header ++ m_stream ++ le32_bytes (crc32 [1; 2; 3]) ++ le32_bytes 3.

Lemma m_member : member [1; 2; 3] m_file.
Proof.
  exists m_header, m_stream, [FixedHuffman [Literal 1; Literal 2; Literal 3]]. split; [reflexivity|]. split; [|split; [|vm_compute; reflexivity]].
  - exists 0, [0; 0; 0; 0; 4; 3], [], [], [], []. repeat split.
  - destruct (proj1 (C23_lemma m_stream UnexpectedEof [FixedHuffman [Literal 1; Literal 2; Literal 3]] [] ltac:(repeat constructor))) as (used & E & H).
    + eexists. split; vm_compute; reflexivity.
    + rewrite app_nil_r in E. rewrite E. exact H.
Qed.

Lemma m_bytes : bytes_ok m_file.
Proof. assert (X : forallb (fun b => b <? 256) m_file = true) by (vm_compute; reflexivity). apply Forall_forall. intros b Hb. rewrite forallb_forall in X. apply N.ltb_lt, X, Hb. Qed.

Lemma C82_lemma_refuted_checksum : exists content body trailer damaged, member content (body ++ trailer)
  /\ List.length damaged = List.length trailer /\ List.length trailer = 8%nat /\ damaged <> trailer /\ bytes_ok (body ++ damaged)
  /\ forall e, cat_run (mkSource (body ++ damaged) e) new_sink = (Ok tt, mkSink content None).
Proof.
  exists [1; 2; 3], (m_header ++ m_stream), (le32_bytes (crc32 [1; 2; 3]) ++ le32_bytes 3), [0; 0; 0; 0; 0; 0; 0; 0].
  split; [rewrite <- app_assoc; exact m_member|]. split; [vm_compute; reflexivity|]. split; [vm_compute; reflexivity|]. split; [vm_compute; discriminate|].
  assert (HB : bytes_ok ((m_header ++ m_stream) ++ [0; 0; 0; 0; 0; 0; 0; 0])) by (repeat constructor). split; [exact HB|].
  intro e. vm_compute. reflexivity.
Qed.

Lemma C82_lemma_refuted_members : exists content file more, members (content ++ more) file /\ more <> [] /\ bytes_ok file
  /\ forall e, cat_run (mkSource file e) new_sink = (Ok tt, mkSink content None).
Proof.
  exists [1; 2; 3], (m_file ++ m_file), [1; 2; 3]. split; [apply members_more; [exact m_member|apply members_one; exact m_member]|]. split; [discriminate|].
  assert (HB : bytes_ok (m_file ++ m_file)) by (apply Forall_app; split; exact m_bytes). split; [exact HB|]. intro e. apply C82_lemma_first; [exact HB|exact m_member].
Qed.
