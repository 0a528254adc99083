(** Proofs of C64. *)
From Verif Require Import Base M_bit M_lib M_circles M_code_tree M_huffman M_gzip M_parse M_serialise M_rezippers Spec Clients Clients_bound
  L_bits L_ring L_reader L_bitprops L_stored L_header L_safe L_parse L_trace L_P_parse L_P_gzip L_P_rez.
From Coq Require Import ZArith ZifyBool ZifyNat ZifyN.
Ltac Zify.zify_post_hook ::= Z.div_mod_to_equations.
Local Open Scope N_scope.
Local Open Scope model_scope.

(** ** Reading never gives bits back *)
Definition shr {A} (m : M (list bool) A) : Prop := forall bs, (List.length (snd (m bs)) <= List.length bs)%nat.
Lemma shr_bind {A B} (m : M _ A) (g : A -> M _ B) : shr m -> (forall a, shr (g a)) -> shr (bind m g).
Proof.
  intros H1 H2 bs. unfold bind. specialize (H1 bs). destruct (m bs) as [[a| | |] b1]; cbn [snd] in *; auto. specialize (H2 a b1). lia.
Qed.
Lemma shr_const {A} (o : outcome A) : shr (fun bs => (o, bs)). Proof. intro bs. cbn. lia. Qed.
Lemma shr_ret {A} (a : A) : shr (ret a). Proof. exact (shr_const _). Qed.
Lemma shr_fail {A} m : shr (fail m : M _ A). Proof. exact (shr_const _). Qed.
Lemma shr_panic {A} m : shr (panic m : M _ A). Proof. exact (shr_const _). Qed.
Lemma shr_ensure b m : shr (ensure b m). Proof. destruct b; exact (shr_const _). Qed.
Lemma shr_assert b m : shr (assert_ b m). Proof. destruct b; exact (shr_const _). Qed.
Lemma shr_lift {A} (o : outcome A) : shr (lift o). Proof. exact (shr_const _). Qed.
Lemma shr_rbl k : shr (rbl k). Proof. intros [|b bs]; cbn; lia. Qed.
Create HintDb shr.
Local Hint Resolve shr_ret shr_fail shr_panic shr_ensure shr_assert shr_rbl shr_bind shr_lift : shr.
Lemma shr_read_part k n : shr (read_part (rbl k) n).
Proof.
  unfold read_part. apply shr_bind; [auto with shr|]. intros _. generalize 0 at 1 as res.
  induction (seq 0 (N.to_nat n)) as [|i l IH]; intro res; cbn [read_part_loop]; auto with shr.
Qed.
Lemma shr_decode k t : shr (decode_symbol (rbl k) t).
Proof.
  unfold decode_symbol. generalize (Internal (ct_left t) (ct_right t)) as nd.
  induction nd; cbn [decode_node]; auto with shr. apply shr_bind; [auto with shr|]. intros []; auto.
Qed.
Local Hint Resolve shr_read_part shr_decode : shr.
Lemma shr_cl_loop k is : forall l, shr (read_cl_loop (rbl k) is l).
Proof. induction is as [|i is IH]; intro l; cbn [read_cl_loop]; auto 6 with shr. Qed.
Lemma shr_lens_loop k t len fuel : forall i rv rl l, shr (read_lens_loop (rbl k) fuel t len i rv rl l).
Proof.
  induction fuel as [|fuel IH]; intros i rv rl l; cbn [read_lens_loop]; [apply shr_lift|].
  assert (C : forall i rv rl l, shr (if Nat.leb len i then ret (rl, l) else read_lens_loop (rbl k) fuel t len i rv rl l)).
  { intros. destruct (Nat.leb _ _); auto with shr. }
  destruct (0 <? rl); [destruct rv; auto with shr|]. apply shr_bind; [auto with shr|]. intro sym.
  destruct (sym <=? 15); [auto with shr|]. destruct (sym =? 16); [auto with shr|]. destruct (sym =? 17); [auto with shr|].
  destruct (sym =? 18); auto with shr.
Qed.
Local Hint Resolve shr_cl_loop shr_lens_loop : shr.
Lemma shr_read_codes k : shr (read_codes (rbl k)).
Proof.
  unfold read_codes. repeat (apply shr_bind; [auto with shr|]; intros).
  destruct a12 as [rl l].
  repeat (apply shr_bind; [auto with shr|]; intros).
  destruct (match skipn _ l with [x] => 0 =? x | _ => false end); auto with shr.
Qed.
Lemma shr_run_length k sym : shr (decode_run_length (rbl k) sym).
Proof.
  unfold decode_run_length. apply shr_bind; [auto with shr|]. intros _.
  destruct (sym <=? 264); [auto with shr|]. destruct (sym <=? 284); [auto with shr|]. destruct (sym =? 285); auto with shr.
Qed.
Lemma shr_distance k sym : shr (decode_distance (rbl k) sym).
Proof.
  unfold decode_distance. destruct (sym <=? 3); [auto with shr|]. destruct (sym <=? 29); [auto with shr|]. destruct (sym <=? 31); auto with shr.
Qed.
Local Hint Resolve shr_run_length shr_distance : shr.
Lemma shr_scan k lt dt fuel : shr (scan_loop (rbl k) fuel lt dt).
Proof.
  induction fuel as [|fuel IH]; cbn [scan_loop]; [apply shr_lift|].
  apply shr_bind; [auto with shr|]. intro sym. destruct (sym =? 256); [auto with shr|]. destruct (sym <? 256); [auto with shr|].
  apply shr_bind; [auto with shr|]. intro run. apply shr_bind; [destruct dt; auto with shr|]. intro ds.
  apply shr_bind; [auto with shr|]. intro d. auto 6 with shr.
Qed.
Lemma shr_lb_scan k lt dt : shr (lb_scan k lt dt).
Proof. intro bs. exact (shr_scan k lt dt _ bs). Qed.
Lemma shr_lb_codes k : shr (lb_codes k).
Proof. intro bs. unfold lb_codes. assert (H := shr_read_codes k bs). destruct (read_codes (rbl k) bs) as [[] b]; exact H. Qed.
Lemma shr_read_bytes k n : shr (lb_read_bytes k n).
Proof. intro bs. unfold lb_read_bytes. destruct (Nat.leb _ _); cbn [snd List.length]; rewrite ?skipn_length; lia. Qed.
Lemma shr_u16 k : shr (lb_u16 k).
Proof. unfold lb_u16. apply shr_bind; [apply shr_read_bytes|]. auto with shr. Qed.
Lemma shr_stored k : shr (lb_stored k).
Proof.
  unfold lb_stored. apply shr_bind.
  - generalize 9%nat as n. induction n; cbn [lb_align_loop]; [apply shr_lift|].
    intro bs. destruct (Nat.eqb _ _); [cbn; lia|]. revert bs. apply shr_bind; auto with shr.
  - intros _. unfold lb_length_prefixed. apply shr_bind; [apply shr_u16|]. intro. apply shr_bind; [apply shr_u16|]. intro.
    apply shr_bind; [auto with shr|]. intros _. apply shr_read_bytes.
Qed.
Lemma shr_block k : shr (lb_read_block k).
Proof.
  unfold lb_read_block. apply shr_bind; [auto with shr|]. intro ty.
  destruct (ty =? 0). { apply shr_bind; [apply shr_stored|auto with shr]. }
  destruct (ty =? 1).
  { apply shr_bind; [auto with shr|]. intro. apply shr_bind; [auto with shr|]. intro.
    apply shr_bind; [apply shr_lb_scan|auto with shr]. }
  destruct (ty =? 2).
  { apply shr_bind; [apply shr_lb_codes|]. intros [[lt dt] v]. apply shr_bind; [apply shr_lb_scan|auto with shr]. }
  destruct (ty =? 3); auto with shr.
Qed.

(** ** Bits of a code *)
Lemma rfc_code_pos lens s w : rfc_code lens s = Some w -> (1 <= List.length w)%nat.
Proof.
  unfold rfc_code. destruct (nth_error _ _) as [l|]; [|discriminate]. destruct ((1 <=? l) && (l <=? 15)) eqn:E; [|discriminate].
  intros [= <-]. unfold msb. rewrite rev_length, lsb_length. lia.
Qed.
Definition sizes (cs : list Code) : N := fold_right N.add 0 (map code_size cs).
Lemma sizes_app a b : sizes (a ++ b) = sizes a + sizes b.
Proof. unfold sizes. induction a as [|x a IH]; cbn [app map fold_right]; [reflexivity|]. rewrite IH. lia. Qed.

Lemma body_bound ll dl cs w : body_bits ll dl cs w -> Forall code_ok cs ->
  (List.length cs < List.length w)%nat /\ sizes cs <= 129 * N.of_nat (List.length w).
Proof.
  induction 1 as [w H|c cs w ws HC HB IH]; intro FC.
  - apply rfc_code_pos in H. cbn [List.length]. split; [lia|]. unfold sizes. cbn [map fold_right]. lia.
  - inversion_clear FC as [|? ? C FC']. destruct (IH FC') as [I1 I2]. cbn [List.length]. rewrite app_length.
    change (sizes (c :: cs)) with (code_size c + sizes cs).
    destruct HC as [b w HB256 E|r lsym lextra le lw dsym dextra de dw T1 E1 T2 E2].
    + apply rfc_code_pos in E. cbn [code_size]. lia.
    + apply rfc_code_pos in E1, E2. rewrite !app_length. cbn [code_size]. cbn [code_ok] in C. unfold ref_ok, ref_len in *. lia.
Qed.

Lemma block_bound off b w : block_bits off b w -> block_wf b ->
  (List.length (block_codes b) <= List.length w)%nat /\ block_size b <= 129 * N.of_nat (List.length w).
Proof.
  intros HB WF. change (block_size b) with (sizes (block_codes b)).
  destruct HB as [data k HL OD HP|cs w HB|ll dl hdr cs w HD HB]; cbn [block_codes block_wf] in *.
  - rewrite map_length, !app_length, bits_of_bytes_length, !app_length.
    assert (ES : sizes (map Literal data) = N.of_nat (List.length data)).
    { clear. unfold sizes. induction data as [|x d IH]; cbn [map fold_right List.length code_size]; [reflexivity|]. rewrite IH. lia. }
    rewrite ES. lia.
  - destruct (body_bound _ _ _ _ HB WF). rewrite app_length. lia.
  - destruct (body_bound _ _ _ _ HB WF). rewrite !app_length. lia.
Qed.

Lemma next_bound e it bs : live e it bs ->
  exists o it' bs', bi_next it = (o, it') /\ live e it' bs'
    /\ (bi_end it = true -> bi_end it' = true /\ blocks_of [o] = [])
    /\ (bi_end it = false -> total_codes (blocks_of [o]) + N.of_nat (List.length bs') <= N.of_nat (List.length bs)
        /\ total_size (blocks_of [o]) + 129 * N.of_nat (List.length bs') <= 129 * N.of_nat (List.length bs)).
Proof.
  unfold live. intro HL. destruct it as [r en]. cbn [bi_inner bi_end] in *. unfold bi_next. cbn [bi_inner bi_end]. destruct en.
  - destruct (br_align_at e bs r HL) as (o & b' & r' & E & R' & H). rewrite E.
    destruct H as [(-> & _ & _)|((er & ->) & _)]; eexists _, _, b'; (split; [reflexivity|]); (split; [exact R'|]); (split; [auto|discriminate]).
  - destruct (sim_br_read_bit e _ _ HL) as (r1 & E1 & R1). rewrite E1.
    destruct bs as [|fin bs]; cbn [rbl fst snd eof_out] in *.
    + eexists _, _, []. split; [reflexivity|]. split; [exact R1|]. split; [discriminate|]. intros _. unfold total_codes, total_size, blocks_of. cbn [app flat_map map fold_right List.length]. lia.
    + destruct (sim_read_block e _ _ R1) as (r2 & E2 & R2). rewrite E2.
      assert (SB := safe_block (EIo e) bs). assert (SH := shr_block (EofErr (EIo e)) bs).
      destruct (lb_read_block (EofErr (EIo e)) bs) as [o b2] eqn:EB. cbn [fst snd] in *.
      destruct o as [b|er| |]; cbn in SB; try tauto; eexists _, _, b2; (split; [reflexivity|]); (split; [exact R2|]); (split; [discriminate|]); intros _.
      * apply (block_sound _ (8 - List.length bs mod 8)) in EB; [|lia]. destruct EB as (w & -> & HB & WF).
        destruct (block_bound _ _ _ HB WF) as [B1 B2]. unfold total_codes, total_size, blocks_of. cbn [flat_map app map fold_right List.length].
        rewrite !app_nil_r, app_length. lia.
      * unfold total_codes, total_size, blocks_of. cbn [app flat_map map fold_right List.length]. lia.
Qed.

Lemma blocks_of_cons o os : blocks_of (o :: os) = blocks_of [o] ++ blocks_of os.
Proof. unfold blocks_of. cbn [flat_map]. now rewrite app_nil_r. Qed.
Lemma total_codes_app a b : total_codes (a ++ b) = total_codes a + total_codes b.
Proof. unfold total_codes. rewrite flat_map_app, app_length. lia. Qed.
Lemma total_size_app a b : total_size (a ++ b) = total_size a + total_size b.
Proof. unfold total_size. induction a as [|x a IH]; cbn [app map fold_right]; [reflexivity|]. rewrite IH. lia. Qed.

Lemma call_next_bound e n : forall it bs, live e it bs ->
  (bi_end it = true -> blocks_of (fst (call_next n it)) = [])
  /\ total_codes (blocks_of (fst (call_next n it))) <= N.of_nat (List.length bs)
  /\ total_size (blocks_of (fst (call_next n it))) <= 129 * N.of_nat (List.length bs).
Proof.
  induction n as [|n IH]; intros it bs HL; cbn [call_next].
  - unfold total_codes, total_size, blocks_of. cbn [fst app flat_map map fold_right List.length]. split; [auto|]. lia.
  - destruct (next_bound e it bs HL) as (o & it' & bs' & E & HL' & H1 & H2). rewrite E.
    destruct (IH it' bs' HL') as (I0 & I1 & I2). destruct (call_next n it') as [os it2]. cbn [fst] in *.
    rewrite blocks_of_cons, total_codes_app, total_size_app. destruct (bi_end it).
    + destruct (H1 eq_refl) as [B1 B2]. rewrite B2, (I0 B1). unfold total_codes, total_size. cbn [app flat_map map fold_right List.length]. split; [auto|]. lia.
    + split; [discriminate|]. destruct (H2 eq_refl). lia.
Qed.

Lemma C64_lemma_parse : forall bytes e n, bytes_ok bytes ->
  total_size (blocks_of (fst (call_next n (parse_deflate (mkSource bytes e))))) <= 1032 * N.of_nat (List.length bytes)
  /\ total_codes (blocks_of (fst (call_next n (parse_deflate (mkSource bytes e))))) <= 8 * N.of_nat (List.length bytes).
Proof.
  intros bytes e n HB. destruct (call_next_bound e n _ _ (live_new bytes e HB)) as (_ & H1 & H2).
  rewrite bits_of_bytes_length in *. lia.
Qed.

(** ** The cat command *)
Lemma sizes_emitted cs : sizes cs = N.of_nat (emitted cs).
Proof.
  unfold sizes. induction cs as [|c cs IH]; cbn [map fold_right emitted]; [reflexivity|]. rewrite IH.
  destruct c; cbn [code_size emitted_bytes]; unfold ref_len, r_run; lia.
Qed.
Lemma total_size_codes bs : total_size bs = sizes (flat_map block_codes bs).
Proof.
  unfold total_size. induction bs as [|b bs IH]; cbn [map fold_right flat_map]; [reflexivity|]. rewrite IH, sizes_app. reflexivity.
Qed.
Lemma blocks_of_some bs : blocks_of (map (fun b => Ok (Some b)) bs) = bs.
Proof. unfold blocks_of. induction bs as [|b bs IH]; cbn [map flat_map app]; [reflexivity|]. now rewrite IH. Qed.

Lemma C64_lemma_cat : forall file e room o out, bytes_ok file ->
  cat_run (mkSource file e) (sink_with room) = (o, out) ->
  N.of_nat (List.length (written out)) <= 1032 * N.of_nat (List.length file).
Proof.
  intros file e room o out HB EC.
  assert (CORE : forall header body blocks good more data, discard_header (mkSource file e) = (Ok header, mkSource body e) ->
     fst (call_next (List.length blocks) (parse_deflate (mkSource body e))) = map (fun b => Ok (Some b)) blocks ->
     flat_map block_codes blocks = good ++ more -> encodes [] data good -> written out = match room with None => data | Some k => firstn k data end ->
     N.of_nat (List.length (written out)) <= 1032 * N.of_nat (List.length file)).
  { intros header body blocks good more data EH EN EG ED EW. destruct (C30_lemma _ _ _ _ EH) as (body' & EB & EF & _). injection EB as <-.
    assert (HBB : bytes_ok body) by (rewrite EF in HB; apply Forall_app in HB; apply HB).
    destruct (C64_lemma_parse body e (List.length blocks) HBB) as [B _]. rewrite EN, blocks_of_some, total_size_codes, EG, sizes_app in B.
    apply lz_decode_length in ED. cbn [app List.length] in ED. rewrite !sizes_emitted in B.
    assert (LW : (List.length (written out) <= List.length data)%nat) by (rewrite EW; destruct room; rewrite ?firstn_length; lia).
    rewrite EF, app_length. lia. }
  destruct (discard_header (mkSource file e)) as [[h|er|m|] s] eqn:EH.
  - destruct (C30_lemma _ _ _ _ EH) as (body & -> & EF & _).
    assert (HBB : bytes_ok body) by (rewrite EF in HB; apply Forall_app in HB; apply HB).
    destruct o as [[]|er|m|].
    + destruct (cat_run_body file e h body (sink_with room) EH) as (d & R & ER). rewrite EC in ER.
      assert (CF := cat_follows (8 * List.length body + 2) (parse_deflate (mkSource body e))).
      assert (T := parse_all_total body e HBB). unfold parse_all in T. cbn [rest] in T.
      destruct (bi_drain _ _) as [[blocks|er|m|] it]; cbn [fst returns] in T; try tauto.
      * destruct CF as [C1 C2]. rewrite C2 in ER. destruct (lz_decode 32768 [] (flat_map block_codes blocks)) as [hh|] eqn:EL.
        -- destruct (L_ring.blocks_emit 32768 blocks [] hh EL d (sink_with room) R) as (b' & X & _). rewrite X in ER.
           destruct (room_written hh room) as [RW _]. destruct (write_all hh (sink_with room)) as [ow sw]. cbn [fst snd] in *. injection ER as _ ->.
           apply (CORE h body blocks (flat_map block_codes blocks) [] hh eq_refl C1); [now rewrite app_nil_r|exact EL|exact RW].
        -- destruct (L_ring.lz_decode_none _ _ _ EL) as (good & r & more & dd & ECC & EG & B).
           destruct (L_ring.blocks_fail _ _ _ _ _ _ _ ECC EG B d (sink_with room) R) as (b' & X). rewrite X in ER.
           destruct (room_written dd room) as [RW _]. destruct (write_all dd (sink_with room)) as [ow sw]. cbn [fst snd] in *. injection ER as _ ->.
           apply (CORE h body blocks good (Reference r :: more) dd eq_refl C1); [exact ECC|exact EG|exact RW].
      * destruct CF as (blocks & C1 & C2). rewrite C2 in ER. unfold bind in ER.
        destruct (decompress_blocks blocks (d, sink_with room)) as [[] []]; cbn [lift] in ER; discriminate.
    + destruct (C47_lemma_failure file e room _ _ HB EC ltac:(discriminate)) as (er' & _ & [[(s & EH') _]|(h' & body' & blocks & good & more & data & EH' & EN & EG & ED & EW & _)]).
      * rewrite EH in EH'. discriminate.
      * rewrite EH in EH'. injection EH' as <- <-. exact (CORE _ _ _ _ _ _ eq_refl EN EG ED EW).
    + destruct (C47_lemma_failure file e room _ _ HB EC ltac:(discriminate)) as (er' & E & _). discriminate.
    + destruct (C47_lemma_failure file e room _ _ HB EC ltac:(discriminate)) as (er' & E & _). discriminate.
  - unfold cat_run in EC. rewrite EH in EC. injection EC as <- <-. cbn [sink_with written List.length]. lia.
  - unfold cat_run in EC. rewrite EH in EC. injection EC as <- <-. cbn [sink_with written List.length]. lia.
  - unfold cat_run in EC. rewrite EH in EC. injection EC as <- <-. cbn [sink_with written List.length]. lia.
Qed.
