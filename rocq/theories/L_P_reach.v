(** Proofs of C84. *)
From Verif Require Import Base M_bit M_lib M_circles M_code_tree M_huffman M_gzip M_parse Spec Clients Clients_reach
  L_bits L_ring L_tree L_reader L_bitprops L_stored L_header L_safe L_parse L_P_huff L_P_parse.
From Coq Require Import ZArith ZifyBool ZifyNat ZifyN.
Ltac Zify.zify_post_hook ::= Z.div_mod_to_equations.
Local Open Scope N_scope.
Local Open Scope model_scope.

(** ** Trees *)
Lemma leaves_flat i : forall lens pos out, leaves_at i pos lens = Ok out -> Forall (fun n => node_height n = O) out.
Proof.
  induction lens as [|v lens IH]; intros pos out E; cbn [leaves_at] in E.
  - injection E as <-. constructor.
  - destruct (i =? v); [|eauto]. destruct (pos <=? 65535); [|discriminate].
    destruct (leaves_at i (pos + 1) lens) as [l| | |] eqn:EL; cbn [obind] in E; try discriminate.
    injection E as <-. constructor; [reflexivity|]. eauto.
Qed.

Lemma pair_up_height h ns : Forall (fun n => (node_height n <= h)%nat) ns ->
  Forall (fun n => (node_height n <= S h)%nat) (pair_up ns).
Proof.
  revert ns. fix IH 1. intros [|a [|b ns]] H; cbn [pair_up]; try constructor.
  - inversion_clear H. inversion_clear H1. cbn [node_height]. lia.
  - apply IH. inversion_clear H. now inversion_clear H1.
Qed.

Lemma levels_height lens : forall is h nodes out, Forall (fun n => (node_height n <= h)%nat) nodes ->
  tree_levels lens is nodes = Ok out -> Forall (fun n => (node_height n <= h + List.length is)%nat) out.
Proof.
  induction is as [|i is IH]; intros h nodes out H E; cbn [tree_levels] in E.
  - injection E as <-. cbn [List.length]. now rewrite Nat.add_0_r.
  - unfold tree_level in E. destruct (Nat.even (List.length nodes)); [|discriminate].
    destruct (if 0 <? i then leaves_at i 0 lens else Ok []) as [l| | |] eqn:EL; cbn [obind] in E; try discriminate.
    cbn [List.length]. rewrite <- Nat.add_succ_comm. refine (IH _ _ _ _ E).
    apply Forall_app. split; [|now apply pair_up_height].
    destruct (0 <? i); [|injection EL as <-; constructor].
    apply leaves_flat in EL. eapply Forall_impl; [|exact EL]. cbn. intros. lia.
Qed.

(** The last of the sixteen levels joins two nodes, the first joins none. *)
Lemma tree_height_le lens t : tree_new lens = Ok t -> (tree_height t <= 15)%nat.
Proof.
  unfold tree_new. destruct (Nat.leb 2 _); [|discriminate]. destruct (_ <=? 4294967295); [|discriminate].
  destruct (tree_levels lens fifteen_to_zero []) as [ns| | |] eqn:E; cbn [obind]; try discriminate.
  destruct (Nat.eqb 1 _); [|discriminate]. destruct ns as [|[|a b] ns]; try discriminate. intro H. injection H as <-.
  unfold tree_height. cbn [ct_left ct_right].
  unfold fifteen_to_zero in E. cbn [tree_levels] in E. unfold tree_level at 1 in E. cbn [List.length Nat.even pair_up] in E.
  change (0 <? 15) with true in E. cbn iota in E.
  destruct (leaves_at 15 0 lens) as [l| | |] eqn:EL; cbn [obind] in E; try discriminate. rewrite app_nil_r in E.
  assert (F : Forall (fun n => (node_height n <= 0)%nat) l).
  { eapply Forall_impl; [|exact (leaves_flat _ _ _ _ EL)]. cbn. intros. lia. }
  assert (G := levels_height lens [14;13;12;11;10;9;8;7;6;5;4;3;2;1;0] 0 l (Internal a b :: ns) F E).
  now inversion_clear G.
Qed.

Lemma C84_lemma_tree : forall lens t, tree_new lens = Ok t -> (1 <= tree_height t <= 15)%nat.
Proof. intros lens t E. split; [unfold tree_height; cbn [node_height]; lia|now apply tree_height_le in E]. Qed.

(** ** Symbols *)
Lemma node_bits n : forall r o r', decode_node br_read_bit n r = (o, r') ->
  exists k o', (k <= node_height n)%nat /\ (k = 0%nat -> exists s, n = Leaf s) /\ read_bits k r = (o', r')
    /\ match o with Ok _ => exists w, o' = Ok w | Err e => o' = Err e | Panic m => o' = Panic m | Diverge => o' = Diverge end.
Proof.
  induction n as [s|a IHa b IHb]; intros r o r' E; cbn [decode_node] in E.
  - unfold ret in E. injection E as <- <-. exists 0%nat, (Ok []). cbn [read_bits node_height]. repeat split; eauto; lia.
  - unfold bind at 1 in E. cbn [node_height]. destruct (br_read_bit r) as [[x|e|m|] r1] eqn:EB.
    2-4: injection E as <- <-; exists 1%nat; eexists; split; [lia|]; split; [lia|];
      cbn [read_bits]; unfold bind at 1; rewrite EB; split; reflexivity.
    assert (H : exists k o', (k <= Nat.max (node_height a) (node_height b))%nat /\ read_bits k r1 = (o', r')
              /\ match o with Ok _ => exists w, o' = Ok w | Err e => o' = Err e | Panic m => o' = Panic m | Diverge => o' = Diverge end).
    { destruct x; [destruct (IHb _ _ _ E) as (k & o' & H1 & _ & H2 & H3)|destruct (IHa _ _ _ E) as (k & o' & H1 & _ & H2 & H3)];
        exists k, o'; (split; [lia|]); auto. }
    destruct H as (k & o' & H1 & H2 & H3). exists (S k).
    exists (match o' with Ok w => Ok (x :: w) | Err e => Err e | Panic m => Panic m | Diverge => Diverge end).
    split; [lia|]. split; [lia|]. cbn [read_bits]. unfold bind at 1. rewrite EB. unfold bind. rewrite H2.
    destruct o; [destruct H3 as [w ->]|subst o'..]; (split; [reflexivity|]); eauto.
Qed.

Lemma C84_lemma_symbol : forall lens t r o r', tree_new lens = Ok t -> decode_symbol br_read_bit t r = (o, r') ->
  exists k o', (1 <= k <= 15)%nat /\ read_bits k r = (o', r')
    /\ match o with Ok _ => exists w, o' = Ok w | Err e => o' = Err e | Panic m => o' = Panic m | Diverge => o' = Diverge end.
Proof.
  intros lens t r o r' ET E. apply node_bits in E. destruct E as (k & o' & H1 & H2 & H3 & H4).
  exists k, o'. split; [|auto]. assert (HH := tree_height_le _ _ ET). unfold tree_height in HH.
  destruct k; [|lia]. destruct (H2 eq_refl) as (s & X). discriminate.
Qed.

(** ** Codes, headers, blocks *)
Lemma rfc_code_length lens s w : rfc_code lens s = Some w -> exists n, nth_error lens (N.to_nat s) = Some n /\ List.length w = N.to_nat n /\ n <= 15.
Proof.
  unfold rfc_code. destruct (nth_error lens (N.to_nat s)) as [n|]; [|discriminate].
  destruct (N.leb_spec 1 n); [|discriminate]. destruct (N.leb_spec n 15); [|discriminate]. cbn [andb].
  intro E. injection E as <-. unfold msb. rewrite rev_length, lsb_length. exists n. auto.
Qed.

Lemma rfc_code_15 lens s w : rfc_code lens s = Some w -> (List.length w <= 15)%nat.
Proof. intro H. apply rfc_code_length in H. destruct H as (n & _ & -> & H). lia. Qed.

Lemma cl_lens_7 cls : Forall (fun c => c < 8) cls -> Forall (fun c => c < 8) (cl_lens cls).
Proof.
  intro H. unfold cl_lens. apply Forall_forall. intros x HX. apply in_map_iff in HX. destruct HX as (s & <- & _).
  assert (F : Forall (fun p : nat * N => snd p < 8) (combine cl_order cls)).
  { apply Forall_forall. intros [a b] HI. apply in_combine_r in HI. rewrite Forall_forall in H. now apply H. }
  induction F as [|p l HP HF IH]; cbn [fold_right]; [lia|]. destruct (Nat.eqb _ _); [exact HP|exact IH].
Qed.

Lemma cl_code_7 cls s w : Forall (fun c => c < 8) cls -> rfc_code (cl_lens cls) s = Some w -> (List.length w <= 7)%nat.
Proof.
  intros HC H. apply rfc_code_length in H. destruct H as (n & E & -> & _). apply nth_error_In in E.
  apply cl_lens_7 in HC. rewrite Forall_forall in HC. apply HC in E. lia.
Qed.

Lemma items_7 cls : Forall (fun c => c < 8) cls -> forall items ws, items_bits (cl_lens cls) items ws ->
  forall prev out, expand prev items out -> (List.length ws <= 7 * List.length out)%nat.
Proof.
  intros HC items ws H. induction H as [|i is w ws HI _ IH]; intros prev out HE; [cbn; lia|].
  rewrite app_length. inversion HE; subst; inversion HI; subst;
    match goal with H : rfc_code _ _ = Some _ |- _ => apply (cl_code_7 _ _ _ HC) in H end;
    match goal with H : expand _ is _ |- _ => apply IH in H end;
    cbn [List.length]; rewrite ?app_length, ?repeat_length, ?lsb_length; lia.
Qed.

Lemma flat_lsb3 l : List.length (flat_map (lsb 3) l) = (3 * List.length l)%nat.
Proof. induction l as [|x l IH]; [reflexivity|]. cbn [flat_map List.length]. rewrite app_length, lsb_length, IH. lia. Qed.

Lemma header_2311 ll dl hdr : dyn_header ll dl hdr -> N.of_nat (List.length hdr) <= 2311.
Proof.
  intro H. inversion H as [hlit hdist hclen cls items ws H1 H2 H3 H4 H5 H6 H7 H8 H9 H10 H11 H12]; subst.
  apply (items_7 _ H5) with (prev := None) (out := ll ++ dl) in H10; [|exact H9].
  rewrite !app_length, !lsb_length, flat_lsb3 in *. lia.
Qed.

Lemma length_extra_5 v s x e : table_row length_table v s x e -> x <= 5.
Proof.
  intros (base & HI & _). assert (F : forallb (fun p => snd (fst p) <=? 5) length_table = true) by reflexivity.
  rewrite forallb_forall in F. apply F in HI. cbn [fst snd] in HI. lia.
Qed.
Lemma distance_extra_13 v s x e : table_row distance_table v s x e -> x <= 13 /\ s < 30.
Proof.
  intros (base & HI & _). assert (F : forallb (fun p => (snd (fst p) <=? 13) && (fst (fst p) <? 30)) distance_table = true) by reflexivity.
  rewrite forallb_forall in F. apply F in HI. cbn [fst snd] in HI. lia.
Qed.

Lemma code_48 ll dl c w : code_bits ll dl c w -> (List.length w <= 48)%nat.
Proof.
  intro H. destruct H as [b w _ H|r ls lx le lw ds dx de dw H1 H2 H3 H4].
  - apply rfc_code_15 in H. lia.
  - apply length_extra_5 in H1. apply distance_extra_13 in H3. apply rfc_code_15 in H2, H4.
    rewrite !app_length, !lsb_length. lia.
Qed.

Lemma body_48 ll dl cs w : body_bits ll dl cs w -> (List.length w <= 48 * List.length cs + 15)%nat.
Proof.
  induction 1 as [w H|c cs w ws H _ IH]; [apply rfc_code_15 in H; lia|].
  apply code_48 in H. rewrite app_length. cbn [List.length]. lia.
Qed.

Lemma fixed_code_bits s w : rfc_code fixed_ll s = Some w -> (List.length w <= 9)%nat /\ (256 <= s -> (List.length w <= 8)%nat)
  /\ (s = 256 -> List.length w = 7%nat).
Proof.
  intro H. assert (HB := rfc_code_bound _ _ _ H). apply rfc_code_length in H. destruct H as (n & E & -> & _).
  assert (F : forallb (fun k => match nth_error fixed_ll k with
                                | Some n => (n <=? 9) && ((k <? 256)%nat || (n <=? 8)) && (negb (k =? 256)%nat || (n =? 7))
                                | None => true end) (seq 0 288) = true) by (vm_compute; reflexivity).
  rewrite forallb_forall in F. specialize (F (N.to_nat s)). rewrite E in F.
  change (N.of_nat (List.length fixed_ll)) with 288 in HB.
  assert (HI : In (N.to_nat s) (seq 0 288)) by (apply in_seq; lia). apply F in HI. lia.
Qed.

Lemma fixed_dist_bits s w : rfc_code fixed_dl s = Some w -> List.length w = 5%nat.
Proof.
  intro H. apply rfc_code_length in H. destruct H as (n & E & -> & _). apply nth_error_In in E.
  unfold fixed_dl in E. apply in_map_iff in E. destruct E as (x & <- & _). reflexivity.
Qed.

Lemma fixed_31 cs w : body_bits fixed_ll fixed_dl cs w -> (List.length w <= 31 * List.length cs + 7)%nat.
Proof.
  induction 1 as [w H|c cs w ws H _ IH].
  - apply fixed_code_bits in H. cbn [List.length]. lia.
  - rewrite app_length. cbn [List.length]. enough (List.length w <= 31)%nat by lia. clear IH.
    destruct H as [b w HB H|r ls lx le lw ds dx de dw H1 H2 H3 H4].
    + apply fixed_code_bits in H. lia.
    + assert (257 <= ls).
      { destruct H1 as (base & HI & _). assert (F : forallb (fun p => 257 <=? fst (fst p)) length_table = true) by reflexivity.
        rewrite forallb_forall in F. apply F in HI. cbn [fst snd] in HI. lia. }
      apply length_extra_5 in H1. apply distance_extra_13 in H3. apply fixed_code_bits in H2. apply fixed_dist_bits in H4.
      rewrite !app_length, !lsb_length. lia.
Qed.

Lemma block_most off b w : block_bits off b w -> N.of_nat (List.length w) <= most_bits b
  /\ match b with DynamicHuffman trees _ => N.of_nat (bv_len trees) <= 2311 | _ => True end.
Proof.
  intro H. destruct H as [data k HD _ [HK _]|cs w H|ll dl hdr cs w HH H]; cbn [most_bits].
  - rewrite !app_length, lsb_length, repeat_length, bits_of_bytes_length, !app_length. cbn [le16_bytes List.length]. lia.
  - apply fixed_31 in H. rewrite app_length, lsb_length. lia.
  - assert (B := header_2311 _ _ _ HH). apply body_48 in H. unfold bitvec_of. cbn [bv_len].
    rewrite !app_length, lsb_length. lia.
Qed.

Lemma stream_most off bs w : stream_bits off bs w -> N.of_nat (List.length w) <= most_stream_bits bs.
Proof.
  induction 1 as [off b w k H [HK _]|off b bs w ws _ H _ IH]; apply block_most in H; destruct H as [H _];
    unfold most_stream_bits in *; cbn [fold_right List.length]; rewrite app_length, ?repeat_length; lia.
Qed.

Lemma C84_lemma_stream : forall bytes e blocks it tail, bytes_ok bytes -> parse_all (mkSource bytes e) = (Ok blocks, it) ->
  br_into_inner (bi_inner it) = Ok (mkSource tail e) ->
  exists used, bytes = used ++ tail /\ 8 * N.of_nat (List.length used) <= most_stream_bits blocks.
Proof.
  intros bytes e blocks it tail HB E ET.
  destruct (proj1 (C23_lemma bytes e blocks tail HB) (ex_intro _ it (conj E ET))) as (used & -> & HS).
  exists used. split; [reflexivity|]. apply stream_most in HS. rewrite bits_of_bytes_length in HS. lia.
Qed.

Lemma C84_lemma_header : forall bytes e off r lt dt r', bytes_ok bytes -> at_bit bytes e off r ->
  read_codes br_read_bit r = (Ok (lt, dt), r') ->
  exists n, (n <= N.to_nat 2311)%nat /\ at_bit bytes e (off + n) r'.
Proof.
  intros bytes e off r lt dt r' HB HA E.
  destruct (C14_lemma bytes e off r HB HA) as (_ & H & _). apply H in E.
  destruct E as (ll & dl & hdr & _ & HH & _ & HA' & _). exists (List.length hdr). split; [|exact HA'].
  apply header_2311 in HH. lia.
Qed.

Lemma C84_lemma_trees : forall bytes e n trees codes, bytes_ok bytes ->
  In (Ok (Some (DynamicHuffman trees codes))) (fst (call_next n (parse_deflate (mkSource bytes e)))) ->
  N.of_nat (bv_len trees) <= 2311.
Proof.
  intros bytes e n trees codes HB HI.
  destruct (call_next_live e n _ _ (live_new bytes e HB)) as (_ & _ & _ & H).
  apply H in HI. destruct HI as (off & w & BB & _). now apply block_most in BB.
Qed.
