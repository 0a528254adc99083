(** Proof that the bound of C64 is reached, up to a constant. *)
From Verif Require Import Base M_bit M_lib M_circles M_gzip M_parse M_rezippers Spec Clients L_bits L_P_gzip L_P_rez.
From Coq Require Import ZArith ZifyBool ZifyNat ZifyN.
Ltac Zify.zify_post_hook ::= Z.div_mod_to_equations.
Local Open Scope N_scope.
Local Open Scope model_scope.

(** One bit for symbol 285 (length 258), two for the literal 0 and the end, one for distance 1. *)
Definition bomb_ll : list N := [2] ++ repeat 0 255 ++ [2] ++ repeat 0 28 ++ [1].
Definition bomb_dl : list N := [1].
Definition bomb_cls : list N := [0; 0; 1; 0; 0; 0; 0; 0; 0; 0; 0; 0; 0; 0; 0; 2; 0; 2].
Definition bomb_items : list cl_item := [CLen 2; CZeros11 138; CZeros11 117; CLen 2; CZeros11 28; CLen 1; CLen 1].
Local Notation t := true (only parsing).
Local Notation f := false (only parsing).
Definition bomb_items_bits : list bool :=
  [t; t] ++ ([f] ++ lsb 7 127) ++ ([f] ++ lsb 7 106) ++ [t; t] ++ ([f] ++ lsb 7 17) ++ [t; f] ++ [t; f].
Definition bomb_header : list bool := lsb 5 29 ++ lsb 5 0 ++ lsb 4 14 ++ flat_map (lsb 3) bomb_cls ++ bomb_items_bits.

Lemma bomb_header_ok : dyn_header bomb_ll bomb_dl bomb_header.
Proof.
  unfold bomb_header. apply (DH bomb_ll bomb_dl 29 0 14 bomb_cls bomb_items bomb_items_bits); try reflexivity.
  - repeat constructor.
  - split; [cbn; lia|vm_compute; reflexivity].
  - replace (bomb_ll ++ bomb_dl) with ([2] ++ repeat 0 (N.to_nat 138) ++ repeat 0 (N.to_nat 117) ++ [2] ++ repeat 0 (N.to_nat 28) ++ [1] ++ [1] ++ []) by (vm_compute; reflexivity).
    unfold bomb_items. apply EX_len; [lia|]. apply EX_zeros11; [lia|]. apply EX_zeros11; [lia|]. apply EX_len; [lia|]. apply EX_zeros11; [lia|]. apply EX_len; [lia|]. apply EX_len; [lia|]. apply EX_nil.
  - unfold bomb_items, bomb_items_bits.
    apply IBS_cons; [apply IB_len; vm_compute; reflexivity|]. apply IBS_cons; [apply (IB_zeros11 _ 138 [f]); vm_compute; reflexivity|].
    apply IBS_cons; [apply (IB_zeros11 _ 117 [f]); vm_compute; reflexivity|]. apply IBS_cons; [apply IB_len; vm_compute; reflexivity|].
    apply IBS_cons; [apply (IB_zeros11 _ 28 [f]); vm_compute; reflexivity|]. apply IBS_cons; [apply IB_len; vm_compute; reflexivity|].
    rewrite <- (app_nil_r [t; f]). apply IBS_cons; [apply IB_len; vm_compute; reflexivity|]. apply IBS_nil.
  - split; [vm_compute; lia|vm_compute; reflexivity].
  - right; left. exists 0%nat, 0%nat. split; [reflexivity|lia].
Qed.

Definition bomb_codes (n : nat) : list Code := Literal 0 :: repeat (Reference (mkRef 1 255)) n.
Definition bomb_body (n : nat) : list bool := [t; f] ++ List.concat (repeat [f; f] n) ++ [t; t].

Lemma bomb_match : code_bits bomb_ll bomb_dl (Reference (mkRef 1 255)) [f; f].
Proof.
  change [f; f] with ([f] ++ lsb (N.to_nat 0) 0 ++ [f] ++ lsb (N.to_nat 0) 0). apply (CB_reference _ _ _ 285 0 0 [f] 0 0 0 [f]).
  - exists 258. split; [|split; reflexivity]. repeat (left; reflexivity) || (unfold length_table; repeat (right; try (left; reflexivity))).
  - vm_compute. reflexivity.
  - exists 1. split; [left; reflexivity|split; reflexivity].
  - vm_compute. reflexivity.
Qed.

Lemma bomb_matches n : body_bits bomb_ll bomb_dl (repeat (Reference (mkRef 1 255)) n) (List.concat (repeat [f; f] n) ++ [t; t]).
Proof.
  induction n as [|n IH]; [apply BB_end; vm_compute; reflexivity|]. cbn [repeat List.concat]. rewrite <- app_assoc. apply BB_code; [exact bomb_match|exact IH].
Qed.

Lemma concat_length n : List.length (List.concat (repeat [f; f] n)) = (2 * n)%nat.
Proof. induction n as [|n IH]; [reflexivity|]. cbn [repeat List.concat]. rewrite app_length, IH. cbn [List.length]. lia. Qed.

Definition bomb_bits (k : nat) : list bool := true :: (lsb 2 2 ++ bomb_header ++ bomb_body (4 * k)) ++ repeat false 5.

Lemma bomb_length k : List.length (bomb_bits k) = (8 * (k + 14))%nat.
Proof.
  unfold bomb_bits, bomb_body. cbn [List.length]. rewrite !app_length, concat_length. change (List.length (lsb 2 2)) with 2%nat. change (List.length (repeat false 5)) with 5%nat.
  replace (List.length bomb_header) with 100%nat by (vm_compute; reflexivity). cbn [List.length]. lia.
Qed.

Lemma bomb_stream k : stream_bits 0 [DynamicHuffman (bitvec_of bomb_header) (bomb_codes (4 * k))] (bomb_bits k).
Proof.
  unfold bomb_bits. apply SB_last.
  - apply (BK_dynamic _ bomb_ll bomb_dl); [exact bomb_header_ok|]. unfold bomb_codes, bomb_body. apply BB_code; [|apply bomb_matches]. apply CB_literal; [lia|vm_compute; reflexivity].
  - split; [lia|]. assert (L := bomb_length k). unfold bomb_bits in L. cbn [List.length] in L. rewrite app_length in L. change (List.length (repeat false 5)) with 5%nat in L. lia.
Qed.

Lemma copy_zeros n : forall m, lz_copy n 1 (repeat 0 (S m)) = repeat 0 (n + S m)%nat.
Proof.
  induction n as [|n IH]; intro m; [reflexivity|]. cbn [lz_copy].
  replace (repeat 0 (S m) ++ [nth (List.length (repeat 0 (S m)) - 1) (repeat 0 (S m)) 0]) with (repeat 0 (S (S m))).
  - rewrite IH. f_equal. lia.
  - rewrite nth_repeat. change [0] with (repeat 0 1). rewrite <- repeat_app. f_equal. lia.
Qed.

Lemma zeros_decode n : forall m, lz_decode 32768 (repeat 0 (S m)) (repeat (Reference (mkRef 1 255)) n) = Some (repeat 0 (N.to_nat (258 * N.of_nat n) + S m)).
Proof.
  induction n as [|n IH]; intro m; [reflexivity|]. cbn [repeat lz_decode r_dist].
  replace ((1 <=? 1) && (1 <=? 32768) && (1 <=? N.of_nat (List.length (0 :: repeat 0 m)))) with true by (cbn [List.length]; lia).
  change (0 :: repeat 0 m) with (repeat 0 (S m)). change (N.to_nat 1) with 1%nat. rewrite copy_zeros. unfold ref_len. cbn [r_run_minus_3].
  replace (N.to_nat (255 + 3) + S m)%nat with (S (N.to_nat 258 + m)) by lia. rewrite IH. do 2 f_equal. lia.
Qed.

Lemma C64_lemma_reached : forall k, exists file, bytes_ok file /\ List.length file = (k + 24)%nat
  /\ forall e, cat_run (mkSource file e) new_sink = (Ok tt, mkSink (repeat 0 (N.to_nat (1032 * N.of_nat k + 1))) None).
Proof.
  intro k. set (header := [31; 139; 8; 0; 0; 0; 0; 0; 0; 3]). set (used := pack (bomb_bits k)).
  assert (M : (List.length (bomb_bits k) mod 8 = 0)%nat) by (rewrite bomb_length; lia).
  assert (U : bits_of_bytes used = bomb_bits k) by (apply bits_of_pack_full, M).
  assert (B : bytes_ok used) by apply pack_bytes_ok.
  assert (BF : bytes_ok (header ++ used)) by (apply Forall_app; split; [repeat constructor|exact B]).
  exists (header ++ used). split; [exact BF|]. split.
  - rewrite app_length. assert (L := bits_of_bytes_length used). rewrite U, bomb_length in L. change (List.length header) with 10%nat. lia.
  - intro e. apply C47_lemma; [exact BF|]. exists header, used, [], [DynamicHuffman (bitvec_of bomb_header) (bomb_codes (4 * k))].
    split; [now rewrite app_nil_r|]. split; [|split].
    + exists 0, [0; 0; 0; 0; 0; 3], [], [], [], []. repeat split.
    + rewrite U. apply bomb_stream.
    + unfold encodes, bomb_codes. cbn [flat_map block_codes app lz_decode]. rewrite app_nil_r. change [0] with (repeat 0 (S 0)) at 1.
      rewrite zeros_decode. do 2 f_equal. lia.
Qed.
