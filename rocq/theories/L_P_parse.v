(** Proofs of the stream-level properties; the statements are repeated, with comments, in P_parse.v. *)
From Verif Require Import Base M_bit M_lib M_code_tree M_huffman M_parse M_serialise Spec Clients L_bits L_writer L_reader L_bitprops L_stored L_tree L_huff L_header L_safe L_parse L_ser.
From Coq Require Import ZArith ZifyBool ZifyNat ZifyN.
Ltac Zify.zify_post_hook ::= Z.div_mod_to_equations.
Local Open Scope N_scope.
Local Open Scope model_scope.

(** ** Reader states *)
Definition live (e : errkind) (it : block_iter) (bs : list bool) : Prop := Rbr e bs (bi_inner it).

Lemma next_live e it bs : live e it bs ->
  exists o it' bs', bi_next it = (o, it') /\ live e it' bs' /\ returns o
    /\ (forall b, o = Ok (Some b) -> exists off w, block_bits off b w /\ block_wf b)
    /\ (o = Ok None -> bi_end it = true /\ it' = mkBlockIter (bi_inner it') true /\ (List.length bs' mod 8 = 0)%nat).
Proof.
  unfold live. intro HL. destruct it as [r en]. cbn [bi_inner bi_end] in *. unfold bi_next. cbn [bi_inner bi_end]. destruct en.
  - destruct (br_align_at e bs r HL) as (o & b' & r' & E & R' & H). rewrite E.
    destruct H as [(-> & _ & LM)|((er & ->) & _)].
    + exists (Ok None), (mkBlockIter r' true), b'. split; [reflexivity|]. split; [exact R'|]. split; [exact I|]. split; [discriminate|auto].
    + exists (Err er), (mkBlockIter r' true), b'. split; [reflexivity|]. split; [exact R'|]. split; [exact I|]. split; discriminate.
  - destruct (sim_br_read_bit e _ _ HL) as (r1 & E1 & R1). rewrite E1.
    destruct bs as [|fin bs]; cbn [rbl fst snd eof_out] in *.
    + eexists (Err _), _, []. split; [reflexivity|]. split; [exact R1|]. split; [exact I|]. split; discriminate.
    + destruct (sim_read_block e _ _ R1) as (r2 & E2 & R2). rewrite E2.
      assert (SB := safe_block (EIo e) bs).
      destruct (lb_read_block (EofErr (EIo e)) bs) as [o b2] eqn:EB. cbn [fst snd] in *.
      destruct o as [b|er| |]; cbn in SB; try tauto.
      * exists (Ok (Some b)), (mkBlockIter r2 fin), b2. split; [reflexivity|]. split; [exact R2|]. split; [exact I|]. split; [|discriminate].
        intros b0 E0. injection E0 as <-.
        apply (block_sound _ (8 - List.length bs mod 8)) in EB; [|lia]. destruct EB as (w & _ & HB & WF). eauto.
      * exists (Err er), (mkBlockIter r2 fin), b2. split; [reflexivity|]. split; [exact R2|]. split; [exact I|]. split; discriminate.
Qed.

Lemma call_next_live e n : forall it bs, live e it bs ->
  exists bs', live e (snd (call_next n it)) bs' /\ Forall returns (fst (call_next n it))
    /\ (forall b, In (Ok (Some b)) (fst (call_next n it)) -> exists off w, block_bits off b w /\ block_wf b).
Proof.
  induction n; intros it bs HL; cbn [call_next].
  - exists bs. split; [exact HL|]. split; [constructor|]. intros b [].
  - destruct (next_live e it bs HL) as (o & it' & bs' & E & HL' & HR & HB & _). rewrite E.
    destruct (IHn it' bs' HL') as (b2 & H1 & H2 & H3). destruct (call_next n it') as [os it2]. cbn [fst snd] in *.
    exists b2. split; [exact H1|]. split; [now constructor|]. intros b [->|HI]; auto.
Qed.

Lemma live_new bytes e : bytes_ok bytes -> live e (parse_deflate (mkSource bytes e)) (bits_of_bytes bytes).
Proof. intro HB. exact (Rbr_new (mkSource bytes e) HB). Qed.

(** ** C16, C17 *)
Lemma C16_lemma : forall bytes e, bytes_ok bytes ->
  returns (fst (parse_all (mkSource bytes e)))
  /\ forall n, Forall returns (fst (call_next n (parse_deflate (mkSource bytes e)))).
Proof.
  intros bytes e HB. split; [now apply parse_all_total|]. intro n.
  destruct (call_next_live e n _ _ (live_new bytes e HB)) as (_ & _ & H & _). exact H.
Qed.

Lemma C17_lemma : forall bytes e n b, bytes_ok bytes ->
  In (Ok (Some b)) (fst (call_next n (parse_deflate (mkSource bytes e)))) ->
  match b with
  | Uncompressed data => bytes_ok data
  | FixedHuffman codes | DynamicHuffman _ codes => Forall code_ok codes
  end.
Proof.
  intros bytes e n b HB HI. destruct (call_next_live e n _ _ (live_new bytes e HB)) as (_ & _ & _ & H).
  destruct (H b HI) as (off & w & _ & WF). destruct b; cbn in WF; tauto.
Qed.

(** ** C23, C21, C22 *)
Lemma C23_lemma : forall bytes e blocks tail, bytes_ok bytes ->
  (exists it, parse_all (mkSource bytes e) = (Ok blocks, it)
              /\ br_into_inner (bi_inner it) = Ok (mkSource tail e))
  <-> exists used, bytes = used ++ tail /\ stream_bits 0 blocks (bits_of_bytes used).
Proof. exact (fun bytes e blocks tail => parse_all_iff bytes e blocks tail). Qed.

Lemma C23_lemma_ends : forall bytes e blocks it, bytes_ok bytes ->
  parse_all (mkSource bytes e) = (Ok blocks, it) ->
  exists tail, br_into_inner (bi_inner it) = Ok (mkSource tail e).
Proof. intros bytes e blocks it HB E. destruct (parse_all_wf _ _ _ _ HB E) as (_ & used & tail & _ & _ & H). eauto. Qed.

Lemma C21_lemma : forall used tail e blocks it other e', bytes_ok (used ++ tail) -> bytes_ok other ->
  parse_all (mkSource (used ++ tail) e) = (Ok blocks, it) ->
  br_into_inner (bi_inner it) = Ok (mkSource tail e) ->
  exists it', parse_all (mkSource (used ++ other) e') = (Ok blocks, it')
              /\ br_into_inner (bi_inner it') = Ok (mkSource other e').
Proof.
  intros used tail e blocks it other e' HB HO E EI.
  destruct (proj1 (parse_all_iff _ e blocks tail HB)) as (u & EU & HS); [eauto|].
  apply app_inv_tail in EU. subst u. apply parse_all_iff; [|eauto].
  unfold bytes_ok in *. rewrite Forall_app in *. tauto.
Qed.

Lemma C22_lemma : forall used tail e blocks it cut e', bytes_ok (used ++ tail) ->
  parse_all (mkSource (used ++ tail) e) = (Ok blocks, it) ->
  br_into_inner (bi_inner it) = Ok (mkSource tail e) ->
  (cut < List.length used)%nat ->
  exists er, fst (parse_all (mkSource (firstn cut used) e')) = Err er.
Proof.
  intros used tail e blocks it cut e' HB E EI HC.
  destruct (proj1 (parse_all_iff _ e blocks tail HB)) as (u & EU & HS); [eauto|].
  apply app_inv_tail in EU. subst u.
  assert (HU : bytes_ok used) by (unfold bytes_ok in *; rewrite Forall_app in HB; tauto).
  assert (HF : bytes_ok (firstn cut used)) by now apply bytes_ok_firstn.
  assert (T := parse_all_total _ e' HF).
  destruct (parse_all (mkSource (firstn cut used) e')) as [[bl|er| |] it'] eqn:EP; cbn [fst returns] in *; try tauto; [|eauto].
  exfalso. destruct (parse_all_wf _ _ _ _ HF EP) as (_ & u2 & t2 & EF & HS2 & _).
  (* parsing the whole of [used] now both stops early and does not *)
  destruct (proj2 (parse_all_iff used e' bl (t2 ++ skipn cut used) HU)) as (i1 & P1 & I1).
  { exists u2. split; [|exact HS2]. rewrite app_assoc, <- EF. symmetry. apply firstn_skipn. }
  destruct (proj2 (parse_all_iff used e' blocks [] HU)) as (i2 & P2 & I2).
  { exists used. split; [now rewrite app_nil_r|exact HS]. }
  rewrite P1 in P2. injection P2 as -> ->. rewrite I1 in I2. injection I2 as E0.
  apply (f_equal (@List.length N)) in E0. rewrite app_length, skipn_length in E0. cbn in E0. lia.
Qed.

(** ** C54 *)
Lemma align_stable e r : Rbr e [] r \/ (exists t, Rbr e (bits_of_bytes t) r) -> br_align r = (Ok tt, r).
Proof.
  intros H. assert (HR : exists t, Rbr e (bits_of_bytes t) r) by (destruct H as [H|H]; [exists []; exact H|exact H]).
  destruct HR as (t & HR). unfold br_align, bind at 1. rewrite (Rbr_untracked _ _ _ HR). cbn [br_align_loop].
  unfold bind at 1. rewrite (br_position_spec _ _ _ HR), bits_of_bytes_length.
  replace ((8 - (8 * List.length t) mod 8) mod 8)%nat with 0%nat by lia. reflexivity.
Qed.

Lemma call_next_same n it o : bi_next it = (o, it) -> fst (call_next n it) = repeat o n.
Proof.
  intro H. induction n; cbn [call_next]; [reflexivity|]. rewrite H. destruct (call_next n it) as [os i2].
  cbn [fst repeat] in *. now rewrite IHn.
Qed.

Lemma C54_lemma_none : forall bytes e n it m, bytes_ok bytes ->
  bi_next (snd (call_next n (parse_deflate (mkSource bytes e)))) = (Ok None, it) ->
  fst (call_next m it) = repeat (Ok None) m.
Proof.
  intros bytes e n it m HB E. destruct (call_next_live e n _ _ (live_new bytes e HB)) as (bs & HL & _).
  destruct (next_live _ _ _ HL) as (o & it' & bs' & E' & HL' & _ & _ & HN). rewrite E in E'. injection E' as <- <-.
  destruct (HN eq_refl) as (_ & EI & LM). apply call_next_same. rewrite EI. unfold bi_next. cbn [bi_end bi_inner].
  unfold live in HL'. rewrite (align_stable e (bi_inner it)); [reflexivity|]. right. exists (pack bs').
  rewrite bits_of_pack_full by assumption. exact HL'.
Qed.

(** Errors are complaints, or what comes after the last bit; then there are no bits left. *)
Definition ioe (k : eofk) {A} (m : M (list bool) A) : Prop :=
  forall bs er bs', m bs = (Err er, bs') -> (exists s, er = EMsg s) \/ bs' = [] /\ k = EofErr er.
Lemma ioe_bind k {A B} (m : M _ A) (g : A -> M _ B) : ioe k m -> (forall a, ioe k (g a)) -> ioe k (bind m g).
Proof. intros H1 H2 bs x bs' E. unfold bind in E. destruct (m bs) as [[a|er| |] b1] eqn:E1; try discriminate; [eapply H2; exact E|]. injection E as -> ->. eapply H1; exact E1. Qed.
Lemma ioe_ret k {A} (a : A) : ioe k (ret a). Proof. intros bs x bs' E. discriminate. Qed.
Lemma ioe_fail k {A} m : ioe k (fail m : M _ A). Proof. intros bs x bs' E. unfold fail in E. injection E as <- <-. left. eauto. Qed.
Lemma ioe_panic k {A} m : ioe k (panic m : M _ A). Proof. intros bs x bs' E. discriminate. Qed.
Lemma ioe_ensure k b m : ioe k (ensure b m). Proof. destruct b; [apply ioe_ret|apply ioe_fail]. Qed.
Lemma ioe_assert k b m : ioe k (assert_ b m). Proof. destruct b; intros bs x bs' E; discriminate. Qed.
Definition no_io {A} (o : outcome A) : Prop := forall er, o = Err er -> exists s, er = EMsg s.
Lemma ioe_lift k {A} (o : outcome A) : no_io o -> ioe k (lift o). Proof. intros H bs x bs' E. unfold lift in E. injection E as E _. left. now apply H. Qed.
Lemma ioe_rbl k : ioe k (rbl k). Proof. intros [|b bs] x bs' E; cbn in E; destruct k; try discriminate; injection E as -> ->; auto. Qed.
Lemma no_io_set {A} (l : list A) i x : no_io (set_idx l i x).
Proof. intros y. unfold set_idx. destruct (Nat.ltb _ _); discriminate. Qed.
Create HintDb ioe.
Local Hint Resolve ioe_ret ioe_fail ioe_panic ioe_ensure ioe_assert ioe_rbl ioe_bind ioe_lift no_io_set : ioe.

Lemma ioe_read_part k n : ioe k (read_part (rbl k) n).
Proof.
  unfold read_part. apply ioe_bind; [auto with ioe|]. intros _. generalize 0 at 1 as res.
  induction (seq 0 (N.to_nat n)) as [|i l IH]; intro res; cbn [read_part_loop]; auto with ioe.
Qed.
Lemma ioe_decode k t : ioe k (decode_symbol (rbl k) t).
Proof.
  unfold decode_symbol. generalize (Internal (ct_left t) (ct_right t)) as nd.
  induction nd; cbn [decode_node]; auto with ioe. apply ioe_bind; [auto with ioe|]. intros []; auto.
Qed.
Local Hint Resolve ioe_read_part ioe_decode : ioe.

Lemma no_io_bind {A B} (o : outcome A) (g : A -> outcome B) : no_io o -> (forall a, no_io (g a)) -> no_io (obind o g).
Proof. intros H1 H2 x E. destruct o as [a|er| |]; cbn in E; try discriminate; [now apply (H2 a x)|]. injection E as ->. now apply (H1 x). Qed.
Lemma no_io_ok {A} (a : A) : no_io (Ok a). Proof. discriminate. Qed.
Lemma no_io_msg {A} m : no_io (Err (EMsg m) : outcome A). Proof. intros x E. injection E as <-. eauto. Qed.
Lemma no_io_panic {A} m : no_io (Panic m : outcome A). Proof. discriminate. Qed.
Local Hint Resolve no_io_bind no_io_ok no_io_msg no_io_panic : ioe.

Lemma no_io_leaves i lens : forall pos, no_io (leaves_at i pos lens).
Proof.
  induction lens; intro pos; cbn [leaves_at]; auto with ioe. destruct (i =? a); auto. destruct (pos <=? 65535); auto with ioe.
Qed.

Lemma no_io_tree lens : no_io (tree_new lens).
Proof.
  unfold tree_new. destruct (Nat.leb _ _); auto with ioe. destruct (_ <=? _); auto with ioe.
  apply no_io_bind.
  - generalize (@nil node). induction fifteen_to_zero as [|i is IH]; intro nodes; cbn [tree_levels]; auto with ioe.
    apply no_io_bind; auto. unfold tree_level. destruct (Nat.even _); auto with ioe.
    apply no_io_bind; auto with ioe. destruct (0 <? i); auto using no_io_leaves with ioe.
  - intro nodes. destruct (Nat.eqb _ _); auto with ioe. destruct nodes as [|[]]; auto with ioe.
Qed.
Lemma no_io_dist_tree dl : no_io (dist_tree_of dl).
Proof. unfold dist_tree_of. destruct (_ && _); apply no_io_tree. Qed.
Lemma no_io_expect {A} m (o : outcome A) : no_io o -> no_io (expect m o).
Proof. intros H x. destruct o; cbn; try discriminate. Qed.
Local Hint Resolve no_io_tree no_io_dist_tree no_io_expect : ioe.

Lemma ioe_cl_loop k is : forall l, ioe k (read_cl_loop (rbl k) is l).
Proof. induction is as [|i is IH]; intro l; cbn [read_cl_loop]; auto 6 with ioe. Qed.

Lemma ioe_lens_loop k t len fuel : forall i rv rl l, ioe k (read_lens_loop (rbl k) fuel t len i rv rl l).
Proof.
  induction fuel as [|fuel IH]; intros i rv rl l; cbn [read_lens_loop]; [apply ioe_lift; discriminate|].
  assert (C : forall i rv rl l, ioe k (if Nat.leb len i then ret (rl, l) else read_lens_loop (rbl k) fuel t len i rv rl l)).
  { intros. destruct (Nat.leb _ _); auto with ioe. }
  destruct (0 <? rl); [destruct rv; auto with ioe|]. apply ioe_bind; [auto with ioe|]. intro sym.
  destruct (sym <=? 15); [auto with ioe|]. destruct (sym =? 16); [auto with ioe|]. destruct (sym =? 17); [auto with ioe|].
  destruct (sym =? 18); auto with ioe.
Qed.
Local Hint Resolve ioe_cl_loop ioe_lens_loop : ioe.

Lemma ioe_read_codes k : ioe k (read_codes (rbl k)).
Proof.
  unfold read_codes. repeat (apply ioe_bind; [auto with ioe|]; intros).
  destruct a12 as [rl l].
  repeat (apply ioe_bind; [auto with ioe|]; intros).
  destruct (match skipn _ l with [x] => 0 =? x | _ => false end); auto with ioe.
Qed.

Lemma ioe_run_length k sym : ioe k (decode_run_length (rbl k) sym).
Proof.
  unfold decode_run_length. apply ioe_bind; [auto with ioe|]. intros _.
  destruct (sym <=? 264); [auto with ioe|]. destruct (sym <=? 284); [auto with ioe|]. destruct (sym =? 285); auto with ioe.
Qed.
Lemma ioe_distance k sym : ioe k (decode_distance (rbl k) sym).
Proof.
  unfold decode_distance. destruct (sym <=? 3); [auto with ioe|]. destruct (sym <=? 29); [auto with ioe|]. destruct (sym <=? 31); auto with ioe.
Qed.
Lemma no_io_ref d r : no_io (Ref_new d r).
Proof. unfold Ref_new. intros x. repeat match goal with |- context [if ?b then _ else _] => destruct b end; discriminate. Qed.
Local Hint Resolve ioe_run_length ioe_distance no_io_ref : ioe.

Lemma ioe_scan k lt dt fuel : ioe k (scan_loop (rbl k) fuel lt dt).
Proof.
  induction fuel as [|fuel IH]; cbn [scan_loop]; [apply ioe_lift; discriminate|].
  apply ioe_bind; [auto with ioe|]. intro sym. destruct (sym =? 256); [auto with ioe|]. destruct (sym <? 256); [auto with ioe|].
  apply ioe_bind; [auto with ioe|]. intro run. apply ioe_bind; [destruct dt; auto with ioe|]. intro ds.
  apply ioe_bind; [auto with ioe|]. intro d. auto 6 with ioe.
Qed.

Lemma ioe_lb_scan k lt dt : ioe k (lb_scan k lt dt).
Proof. intros bs x bs' E. unfold lb_scan in E. eapply ioe_scan; exact E. Qed.

Lemma ioe_lb_codes k : ioe k (lb_codes k).
Proof.
  intros bs x bs' E. unfold lb_codes in E. destruct (read_codes (rbl k) bs) as [[] b] eqn:ER; try discriminate.
  injection E as -> ->. eapply ioe_read_codes; exact ER.
Qed.

Lemma ioe_read_bytes k n : ioe k (lb_read_bytes k n).
Proof.
  intros bs x bs' E. unfold lb_read_bytes in E. destruct (Nat.leb _ _); destruct k; try discriminate; injection E as -> ->; auto.
Qed.
Lemma ioe_u16 k : ioe k (lb_u16 k).
Proof. unfold lb_u16. apply ioe_bind; [apply ioe_read_bytes|]. auto with ioe. Qed.

Lemma ioe_stored k : ioe k (lb_stored k).
Proof.
  unfold lb_stored. apply ioe_bind.
  - generalize 9%nat as n. induction n; cbn [lb_align_loop]; [apply ioe_lift; discriminate|].
    intros bs x bs' E. destruct (Nat.eqb _ _); [discriminate|].
    revert E. apply ioe_bind; auto with ioe.
  - intros _. unfold lb_length_prefixed. apply ioe_bind; [apply ioe_u16|]. intro. apply ioe_bind; [apply ioe_u16|]. intro.
    apply ioe_bind; [auto with ioe|]. intros _. apply ioe_read_bytes.
Qed.

Lemma ioe_block k : ioe k (lb_read_block k).
Proof.
  unfold lb_read_block. apply ioe_bind; [auto with ioe|]. intro ty.
  destruct (ty =? 0). { apply ioe_bind; [apply ioe_stored|auto with ioe]. }
  destruct (ty =? 1).
  { apply ioe_bind; [unfold FIXED_LENGTH_TREE; auto with ioe|]. intro. apply ioe_bind; [unfold FIXED_DISTANCE_TREE; auto with ioe|]. intro.
    apply ioe_bind; [apply ioe_lb_scan|auto with ioe]. }
  destruct (ty =? 2).
  { apply ioe_bind; [apply ioe_lb_codes|]. intros [[lt dt] v]. apply ioe_bind; [apply ioe_lb_scan|auto with ioe]. }
  destruct (ty =? 3); auto with ioe.
Qed.

Lemma C54_lemma_io : forall bytes e n it x m, bytes_ok bytes ->
  bi_next (snd (call_next n (parse_deflate (mkSource bytes e)))) = (Err (EIo x), it) ->
  x = e /\ (fst (call_next m it) = repeat (Err (EIo e)) m \/ fst (call_next m it) = repeat (Ok None) m).
Proof.
  intros bytes e n it x m HB E. destruct (call_next_live e n _ _ (live_new bytes e HB)) as (bs & HL & _).
  destruct (snd (call_next n (parse_deflate (mkSource bytes e)))) as [r en]. unfold live in HL. cbn [bi_inner] in HL.
  assert (X : x = e /\ Rbr e [] (bi_inner it)).
  { unfold bi_next in E. cbn [bi_inner bi_end] in E. destruct en.
    - destruct (br_align_spec e bs r HL) as [I1 I2].
      set (p := firstn (List.length bs mod 8) bs) in *.
      destruct (list_eq_dec Bool.bool_dec p (repeat false (List.length p))) as [Hp|Hp].
      + destruct (I1 Hp) as (r' & EA & _). rewrite EA in E. discriminate.
      + destruct (I2 Hp) as (b' & r' & EA & _). rewrite EA in E. discriminate.
    - destruct (sim_br_read_bit e _ _ HL) as (r1 & E1 & R1). rewrite E1 in E.
      destruct bs as [|fin bs]; cbn [rbl fst snd eof_out] in *.
      + injection E as <- <-. auto.
      + destruct (sim_read_block e _ _ R1) as (r2 & E2 & R2). rewrite E2 in E.
        destruct (lb_read_block (EofErr (EIo e)) bs) as [o b2] eqn:EB. cbn [fst snd] in *.
        destruct o as [b|er| |]; try discriminate. injection E as -> <-. cbn [bi_inner].
        apply ioe_block in EB. destruct EB as [(s & EB)|[-> EK]]; [discriminate EB|]. injection EK as <-. auto. }
  destruct X as [-> HR]. split; [reflexivity|].
  destruct it as [r' en']. cbn [bi_inner] in HR. destruct en'.
  - right. apply call_next_same. unfold bi_next. cbn [bi_end bi_inner]. rewrite (align_stable e r') by auto. reflexivity.
  - left. apply call_next_same. unfold bi_next. cbn [bi_end bi_inner].
    assert (ER : br_read_bit r' = (Err (EIo e), r')).
    { assert (L := Rbr_length _ _ _ HR). unfold br_bits_left in L. cbn [List.length] in L.
      destruct HR as (_ & _ & HE & _). destruct r' as [[rs ae] cur rem tr]. cbn [br_inner br_remaining rest at_end] in *.
      destruct rs as [|y rs]; [|cbn in L; lia]. assert (rem = 0) as -> by lia. subst ae. reflexivity. }
    rewrite ER. reflexivity.
Qed.

(** ** C07 *)
Lemma stored_refutation : parse_all (mkSource [1; 0; 1; 255; 254; 7] UnexpectedEof)
  = (Err (EIo UnexpectedEof), mkBlockIter (mkReader (mkSource [] UnexpectedEof) 1 0 None) true).
Proof. vm_compute. reflexivity. Qed.

Lemma C07_refuted_lemma : exists data, bytes_ok data /\ N.of_nat (List.length data) < 65536
  /\ exists bytes, compress_all [Uncompressed data] = Ok bytes
     /\ forall it, parse_all (mkSource bytes UnexpectedEof) <> (Ok [Uncompressed data], it).
Proof.
  exists [7]. split; [repeat constructor|]. split; [reflexivity|]. exists [1; 0; 1; 255; 254; 7]. split; [vm_compute; reflexivity|].
  intros it. rewrite stored_refutation. discriminate.
Qed.

Lemma stored_stream data : bytes_ok data -> N.of_nat (List.length data) < 65536 ->
  compress_all [Uncompressed data]
  = Ok (1 :: be_bytes (N.of_nat (List.length data)) ++ be_bytes (65535 - N.of_nat (List.length data)) ++ data).
Proof.
  intros OD HL. set (n := N.of_nat (List.length data)) in *.
  assert (W : writes [] (compress_blocks [Uncompressed data])
    ([true] ++ (lsb 2 0 ++ repeat false 5 ++ bits_of_bytes (be_bytes n ++ be_bytes (65535 - n) ++ data)) ++ repeat false 0)).
  { cbn [compress_blocks]. apply (writes_bind [] _ _ [true]); [apply writes_bit|]. apply writes_bind.
    - cbn [compressed_block]. apply writes_bind; [apply (writes_bits_val _ 2 0); lia|].
      apply writes_length_prefixed; auto. split; cbn; lia.
    - apply writes_align. rewrite !app_length, lsb_length, repeat_length, bits_of_bytes_length. cbn [List.length]. split; lia. }
  cbn [repeat] in W. rewrite app_nil_r in W.
  rewrite (compress_all_writes _ _ W).
  - f_equal.
    change ([true] ++ lsb 2 0 ++ [false; false; false; false; false] ++ bits_of_bytes (be_bytes n ++ be_bytes (65535 - n) ++ data))
      with (bits_of_bytes (1 :: be_bytes n ++ be_bytes (65535 - n) ++ data)).
    apply pack_bits_of_bytes. constructor; [reflexivity|]. unfold bytes_ok. rewrite !Forall_app.
    split; [apply be_bytes_ok; assumption|]. split; [apply be_bytes_ok; lia|exact OD].
  - rewrite !app_length, lsb_length, bits_of_bytes_length. cbn [List.length]. lia.
Qed.

Lemma C07_partial_lemma : forall data e, bytes_ok data -> N.of_nat (List.length data) < 65536 ->
  exists bytes, compress_all [Uncompressed data] = Ok bytes
    /\ ((exists it, parse_all (mkSource bytes e) = (Ok [Uncompressed data], it)
                    /\ br_into_inner (bi_inner it) = Ok (mkSource [] e))
        <-> symmetric_length data).
Proof.
  intros data e OD HL. set (n := N.of_nat (List.length data)) in *.
  exists (1 :: be_bytes n ++ be_bytes (65535 - n) ++ data). split; [now apply stored_stream|].
  assert (BO : bytes_ok (1 :: be_bytes n ++ be_bytes (65535 - n) ++ data)).
  { constructor; [reflexivity|]. unfold bytes_ok. rewrite !Forall_app.
    split; [apply be_bytes_ok; assumption|]. split; [apply be_bytes_ok; lia|exact OD]. }
  rewrite parse_all_iff by exact BO.
  assert (GR : stream_bits 0 [Uncompressed data] (bits_of_bytes (1 :: le16_bytes n ++ le16_bytes (65535 - n) ++ data))).
  { assert (X : bits_of_bytes (1 :: le16_bytes n ++ le16_bytes (65535 - n) ++ data)
       = true :: (lsb 2 0 ++ repeat false 5 ++ bits_of_bytes (le16_bytes n ++ le16_bytes (65535 - n) ++ data)) ++ repeat false 0).
    { cbn [repeat]. rewrite app_nil_r. reflexivity. }
    rewrite X. constructor.
    - constructor; auto. split; cbn; lia.
    - rewrite !app_length, lsb_length, repeat_length, bits_of_bytes_length. split; lia. }
  split.
  - intros (used & EU & HS). rewrite app_nil_r in EU. subst used.
    remember (bits_of_bytes (1 :: be_bytes n ++ be_bytes (65535 - n) ++ data)) as W eqn:EW.
    inversion HS as [off b w k HB HP EO EB EW1|off b bs w ws NE]; [|contradiction]. rewrite <- EW1 in EW. clear EW1 HS W. subst.
    remember (Uncompressed data) as B eqn:EB.
    inversion HB as [d k' HL' OD' HP' ED EW'|cs w' _ ED|ll dl hdr cs w' _ _ ED]; subst B; try discriminate ED. injection ED as ->. subst w. clear HB.
    assert (k' = 5%nat) as -> by (destruct HP'; lia). fold n in EW.
    change (bits_of_bytes (1 :: be_bytes n ++ be_bytes (65535 - n) ++ data))
      with ((true :: lsb 2 0 ++ repeat false 5) ++ bits_of_bytes (be_bytes n ++ be_bytes (65535 - n) ++ data)) in EW.
    change (true :: (lsb 2 0 ++ repeat false 5 ++ bits_of_bytes (le16_bytes n ++ le16_bytes (65535 - n) ++ data)) ++ repeat false k)
      with ((true :: lsb 2 0 ++ repeat false 5) ++ bits_of_bytes (le16_bytes n ++ le16_bytes (65535 - n) ++ data) ++ repeat false k) in EW.
    apply app_inv_head in EW. rewrite !bits_of_bytes_app, <- !app_assoc in EW.
    apply app_eq_len in EW; [|rewrite !bits_of_bytes_length; reflexivity]. destruct EW as [EW _].
    apply bits_of_bytes_inj in EW; [|apply le16_ok; assumption|apply be_bytes_ok; assumption].
    unfold symmetric_length. fold n. apply be_le_symmetric; [assumption|]. now symmetry.
  - intro S. destruct (be_le_both data S HL) as [E1 E2]. fold n in E1, E2. rewrite <- E1, <- E2.
    eexists. split; [now rewrite app_nil_r|exact GR].
Qed.

(** ** C18 *)
Lemma fixed_ll_codes s : s < 288 -> rfc_code fixed_ll s <> None.
Proof.
  intro H. assert (A : forallb (fun s => match rfc_code fixed_ll s with Some _ => true | None => false end) (map N.of_nat (seq 0 288)) = true)
    by (vm_compute; reflexivity).
  rewrite forallb_forall in A. specialize (A s). assert (IN : In s (map N.of_nat (seq 0 288))).
  { apply in_map_iff. exists (N.to_nat s). split; [lia|]. apply in_seq. lia. }
  specialize (A IN). destruct (rfc_code fixed_ll s); discriminate.
Qed.
Lemma fixed_dl_codes s : s < 32 -> rfc_code fixed_dl s <> None.
Proof.
  intro H. assert (A : forallb (fun s => match rfc_code fixed_dl s with Some _ => true | None => false end) (map N.of_nat (seq 0 32)) = true)
    by (vm_compute; reflexivity).
  rewrite forallb_forall in A. specialize (A s). assert (IN : In s (map N.of_nat (seq 0 32))).
  { apply in_map_iff. exists (N.to_nat s). split; [lia|]. apply in_seq. lia. }
  specialize (A IN). destruct (rfc_code fixed_dl s); discriminate.
Qed.

Lemma expressible_ok ll dl c : expressible ll dl c -> code_ok c.
Proof. destruct c; cbn; tauto. Qed.

Lemma fixed_expressible c : code_ok c -> expressible fixed_ll fixed_dl c.
Proof.
  destruct c as [b|r]; cbn.
  - intro H. split; [assumption|]. apply fixed_ll_codes. lia.
  - intros [H1 H2]. split; [split; assumption|].
    destruct (encode_length_spec (ref_len r)) as (sym & x & E1 & _ & TR & _); [unfold ref_len; lia|].
    destruct (encode_distance_spec (r_dist r) H1) as (ds & eb & ev & _ & TD & _).
    split.
    + exists sym. do 2 eexists. split; [exact TR|]. split.
      * intro E. rewrite E in E1. now injection E1.
      * apply fixed_ll_codes. apply table_row_length in TR. lia.
    + do 3 eexists. split; [exact TD|]. apply fixed_dl_codes. apply table_row_distance in TD. lia.
Qed.

Lemma expressible_body ll dl cs : rfc_code ll 256 <> None -> Forall (expressible ll dl) cs ->
  exists w, canonical_body ll dl cs w.
Proof.
  intros HE. induction 1 as [|c cs HC _ (ws & IH)].
  - destruct (rfc_code ll 256) as [w|] eqn:E; [|contradiction]. exists w. now constructor.
  - destruct c as [b|r]; cbn in HC.
    + destruct HC as [Hb HC]. destruct (rfc_code ll b) as [w|] eqn:E; [|contradiction].
      exists (w ++ ws). constructor; [|assumption]. split; [now constructor|exact I].
    + destruct HC as (HR & (s & n & v & TR & H285 & HS) & (ds & dn & dv & TD & HD)).
      destruct (rfc_code ll s) as [lw|] eqn:EL; [|contradiction]. destruct (rfc_code dl ds) as [dw|] eqn:ED; [|contradiction].
      eexists. apply CY_code; [|exact IH]. split; [eapply CB_reference; eassumption|].
      intro E. specialize (H285 E). subst s. exists lw. eexists. split; [exact EL|reflexivity].
Qed.

Definition stored_symmetric (b : Block) : Prop := match b with Uncompressed d => symmetric_length d | _ => True end.

Lemma block_ok_canonical b off : block_ok b -> stored_symmetric b -> block_wf b /\ exists w, canonical_block off b w.
Proof.
  destruct b as [d|cs|v cs]; cbn.
  - intros [H1 H2] S. split; [auto|]. destruct (pads_exists (off + 2)) as (k & HP). eexists. constructor; [exact S|]. constructor; eassumption.
  - intros H _. split; [assumption|]. destruct (expressible_body fixed_ll fixed_dl cs) as (w & HW).
    + apply fixed_ll_codes. lia.
    + eapply Forall_impl; [|exact H]. intros. now apply fixed_expressible.
    + eexists. econstructor. exact HW.
  - intros (ll & dl & hdr & -> & HD & HE & HF) _. split.
    + eapply Forall_impl; [|exact HF]. intros. eapply expressible_ok; eassumption.
    + destruct (expressible_body ll dl cs HE HF) as (w & HW). eexists. econstructor; eassumption.
Qed.

Lemma stream_ok_canonical bs : bs <> [] -> Forall block_ok bs -> Forall stored_symmetric bs -> forall off,
  exists w, canonical_stream off bs w.
Proof.
  induction bs as [|b bs IH]; intros NE HO HS off; [contradiction|].
  inversion HO; subst. inversion HS; subst. destruct (block_ok_canonical b (off + 1)) as (_ & w & HW); auto.
  destruct bs as [|b1 bs].
  - destruct (pads_exists (off + 1 + List.length w)) as (k & HP). eexists. constructor; eassumption.
  - destruct (IH ltac:(discriminate) ltac:(assumption) ltac:(assumption) (off + 1 + List.length w)%nat) as (ws & HWS).
    eexists. constructor; [discriminate|exact HW|exact HWS].
Qed.

Lemma C18_partial_lemma : forall blocks e, blocks <> [] -> Forall block_ok blocks ->
  (forall data, In (Uncompressed data) blocks -> symmetric_length data) ->
  exists bytes it, compress_all blocks = Ok bytes
    /\ parse_all (mkSource bytes e) = (Ok blocks, it)
    /\ br_into_inner (bi_inner it) = Ok (mkSource [] e).
Proof.
  intros blocks e NE HO HS.
  assert (HS' : Forall stored_symmetric blocks).
  { rewrite Forall_forall in *. intros b HI. destruct b; cbn; auto. }
  destruct (stream_ok_canonical blocks NE HO HS' 0) as (w & HW).
  assert (WF : Forall block_wf blocks).
  { rewrite Forall_forall in *. intros b HI. apply (block_ok_canonical b 0); auto. }
  assert (AL := stream_bits_aligned _ _ _ (canonical_stream_stream _ _ _ HW)). cbn [Nat.add] in AL.
  assert (CA := compress_all_writes _ _ (stream_canonical _ _ _ HW WF [] eq_refl) AL).
  exists (pack w). destruct (proj2 (parse_all_iff (pack w) e blocks [] (pack_bytes_ok w))) as (it & E & EI).
  - exists (pack w). split; [now rewrite app_nil_r|]. rewrite bits_of_pack_full by assumption. now apply canonical_stream_stream.
  - exists it. auto.
Qed.

(** ** C19, C20 *)
Lemma C19_exact_lemma : forall used tail e blocks it, bytes_ok (used ++ tail) ->
  parse_all (mkSource (used ++ tail) e) = (Ok blocks, it) ->
  br_into_inner (bi_inner it) = Ok (mkSource tail e) ->
  (compress_all blocks = Ok used <-> canonical_stream 0 blocks (bits_of_bytes used)).
Proof.
  intros used tail e blocks it HB E EI.
  destruct (proj1 (parse_all_iff _ e blocks tail HB)) as (u & EU & HS); [eauto|].
  apply app_inv_tail in EU. subst u. destruct (parse_all_wf _ _ _ _ HB E) as (WF & _).
  assert (HU : bytes_ok used) by (unfold bytes_ok in *; rewrite Forall_app in HB; tauto).
  split.
  - intro EC. unfold compress_all in EC. destruct (compress_blocks blocks (bw_new new_sink)) as [o w] eqn:EW.
    destruct o as [[]| | |]; cbn [obind] in EC; try discriminate.
    destruct (compress_blocks_grows blocks _ _ [] wst_new WF _ _ HS EW) as (x & WX). cbn [app] in WX.
    destruct (bw_into_inner w) as [s| | |] eqn:EI2; cbn [obind] in EC; try discriminate. injection EC as EC.
    assert (X : x = bits_of_bytes used).
    { unfold bw_into_inner in EI2. destruct (Nat.eqb_spec 0 (bv_len (bw_current w))) as [E0|]; [|discriminate]. injection EI2 as <-.
      destruct WX as (_ & pend & _ & HC & _ & ->). rewrite HC in E0. cbn [bv_len bitvec_of] in E0.
      destruct pend; [|discriminate]. now rewrite EC, app_nil_r. }
    subst x.
    destruct (stream_matches 0 blocks (bits_of_bytes used) HS WF [] _ w [] eq_refl wst_new EW) as [CS _]; [|exact CS].
    cbn [app]. now rewrite app_nil_r.
  - intro CS.
    assert (AL := stream_bits_aligned _ _ _ HS). cbn [Nat.add] in AL.
    rewrite (compress_all_writes _ _ (stream_canonical _ _ _ CS WF [] eq_refl) AL).
    now rewrite pack_bits_of_bytes.
Qed.

Lemma C20_partial_lemma : forall bytes e n b, bytes_ok bytes ->
  In (Ok (Some b)) (fst (call_next n (parse_deflate (mkSource bytes e)))) ->
  fst (compressed_block b (bw_new new_sink)) = Ok tt
  \/ (exists msg, fst (compressed_block b (bw_new new_sink)) = Panic msg)
     /\ exists ll dl hdr cs r, b = DynamicHuffman (bitvec_of hdr) cs /\ dyn_header ll dl hdr
          /\ In (Reference r) cs /\ ref_len r = 258 /\ rfc_code ll 285 = None.
Proof.
  intros bytes e n b HB HI. destruct (call_next_live e n _ _ (live_new bytes e HB)) as (_ & _ & _ & H).
  destruct (H b HI) as (off & w & BB & WF). destruct (block_bits_shift _ _ _ BB 0) as (w0 & BB0).
  destruct (block_written _ _ _ BB0 WF) as [(w' & W & _)|[P X]]; [left|right].
  - destruct (W [] eq_refl _ wst_new) as (st & E & _). now rewrite E.
  - split; [|exact X]. destruct (P [] _ wst_new) as (msg & st & E). exists msg. now rewrite E.
Qed.

Lemma C18_refuted_lemma : exists blocks, blocks <> [] /\ Forall block_ok blocks
  /\ forall bytes, compress_all blocks = Ok bytes -> forall it, parse_all (mkSource bytes UnexpectedEof) <> (Ok blocks, it).
Proof.
  exists [Uncompressed [7]]. split; [discriminate|]. split.
  - constructor; [|constructor]. split; [repeat constructor|reflexivity].
  - intros bytes E it. replace bytes with [1; 0; 1; 255; 254; 7]; [rewrite stored_refutation; discriminate|].
    vm_compute in E. now injection E.
Qed.

Lemma C19_refuted_lemma : exists bytes blocks it, bytes_ok bytes
  /\ parse_all (mkSource bytes UnexpectedEof) = (Ok blocks, it)
  /\ br_into_inner (bi_inner it) = Ok (mkSource [] UnexpectedEof)
  /\ (forall data, ~ In (Uncompressed data) blocks)
  /\ exists other, compress_all blocks = Ok other /\ other <> bytes.
Proof.
  exists [27; 249; 0; 0], [FixedHuffman [Reference {| r_dist := 1; r_run_minus_3 := 255 |}]]. eexists.
  split; [repeat constructor|]. split; [vm_compute; reflexivity|]. split; [vm_compute; reflexivity|].
  split; [intros d [E|[]]; discriminate|]. exists [27; 5; 0]. split; [vm_compute; reflexivity|discriminate].
Qed.

Lemma C20_refuted_lemma : exists bytes b, bytes_ok bytes
  /\ In (Ok (Some b)) (fst (call_next 1 (parse_deflate (mkSource bytes UnexpectedEof))))
  /\ exists msg, fst (compressed_block b (bw_new new_sink)) = Panic msg.
Proof.
  exists [229; 192; 129; 0; 0; 0; 0; 0; 144; 255; 107; 33; 252; 0].
  exists (DynamicHuffman {| bv_bytes := [28; 56; 16; 0; 0; 0; 0; 0; 242; 127; 45; 4]; bv_len := 95 |}
           [Reference {| r_dist := 1; r_run_minus_3 := 255 |}]).
  split; [repeat constructor|]. split; [vm_compute; left; reflexivity|]. eexists. vm_compute. reflexivity.
Qed.
