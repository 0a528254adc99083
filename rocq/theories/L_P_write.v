(** Proofs of C74 and of the size limit in C07. *)
From Verif Require Import Base M_bit M_lib M_code_tree M_huffman M_parse M_serialise Spec Clients Clients_wrong Clients_write L_bits L_writer L_reader L_stored
  L_tree L_huff L_header L_safe L_parse L_ser L_P_parse L_P_ser2 L_wrong.
From Coq Require Import ZArith ZifyBool ZifyNat ZifyN.
Ltac Zify.zify_post_hook ::= Z.div_mod_to_equations.
Local Open Scope N_scope.
Local Open Scope model_scope.

(** ** Outcomes of writing, from any state *)
Definition does (v : verdict) (m : M bit_writer unit) : Prop :=
  forall out w, wst out w -> meets v (fst (m w)) /\ (v = Written -> exists out', wst out' (snd (m w))).

Lemma does_writes m : (forall out, exists bs, writes out m bs) -> does Written m.
Proof. intros H out w HW. destruct (H out) as (bs & HB). destruct (HB w HW) as (w' & E & HW'). rewrite E. split; [exact I|]. eauto. Qed.
Lemma does_writes1 m bs : (forall out, writes out m bs) -> does Written m.
Proof. intro H. apply does_writes. eauto. Qed.
Lemma does_bind v (m : M bit_writer unit) (g : unit -> M bit_writer unit) : does Written m -> does v (g tt) -> does v (bind m g).
Proof.
  intros H1 H2 out w HW. destruct (H1 out w HW) as [M1 S1]. unfold bind. destruct (m w) as [o w1]. cbn [fst snd] in *. destruct o as [[]| | |]; try contradiction.
  destruct (S1 eq_refl) as (out' & HW'). exact (H2 out' w1 HW').
Qed.
Lemma does_bind_l v (m : M bit_writer unit) (g : unit -> M bit_writer unit) : v <> Written -> does v m -> does v (bind m g).
Proof.
  intros NV H out w HW. destruct (H out w HW) as [M1 _]. unfold bind. destruct (m w) as [o w1]. cbn [fst snd] in *. split; [|congruence].
  destruct v, o; try contradiction; try congruence; exact I.
Qed.
Lemma does_lift {A} v (x : outcome A) a (g : A -> M bit_writer unit) : x = Ok a -> does v (g a) -> does v (bind (lift x) g).
Proof. intros -> H. exact H. Qed.
Lemma does_lift_l {A} v (x : outcome A) (g : A -> M bit_writer unit) : v <> Written -> meets v x -> does v (bind (lift x) g).
Proof. intros NV H out w HW. unfold bind, lift. split; [|congruence]. destruct v, x; try contradiction; try congruence; exact I. Qed.
Lemma does_assert v b msg (m : M bit_writer unit) : b = true -> does v m -> does v (assert_ b msg ;;; m).
Proof. intros -> H. apply does_bind; [|exact H]. apply (does_writes1 _ []). intro. apply writes_ret. Qed.
Lemma does_panics m : panics m -> does Crashes m.
Proof. intros H out w HW. destruct (H out w HW) as (msg & w' & E). rewrite E. split; [exact I|discriminate]. Qed.
Lemma does_fail msg : does Refused (fail msg).
Proof. intros out w HW. split; [exact I|discriminate]. Qed.
Lemma does_panic_lift {A} msg (g : A -> M bit_writer unit) : does Crashes (bind (lift (Panic msg)) g).
Proof. apply does_lift_l; [discriminate|exact I]. Qed.

(** ** Distances out of range *)
Lemma far_distance d : d < 65536 -> ~ 1 <= d <= 32768 -> exists msg, huff_encode_distance d = Panic msg.
Proof.
  intros LT NB. destruct (N.eq_dec d 0) as [->|NZ]; [eexists; reflexivity|]. unfold huff_encode_distance. destruct (N.leb_spec d 4); [lia|].
  assert (G : forall f e c b, exists x, encode_distance_loop (S f) d e c b = x) by eauto. clear G.
  assert (E : forall f e c b, b * 2 < 65536 -> b * 2 < d -> encode_distance_loop (S f) d e c b = encode_distance_loop f d (e + 1) (c + 2) (b * 2)).
  { intros f e c b H1 H2. cbn [encode_distance_loop]. destruct (N.leb_spec 65536 (b * 2)); [lia|]. destruct (N.ltb_spec (b * 2) d); [reflexivity|lia]. }
  do 13 (rewrite E by lia). cbn [encode_distance_loop]. destruct (N.leb_spec 65536 (4 * 2 * 2 * 2 * 2 * 2 * 2 * 2 * 2 * 2 * 2 * 2 * 2 * 2 * 2)); [|lia]. eexists. reflexivity.
Qed.

(** ** Codes *)
Definition dinv_none (dl : list N) (dinv : option (list (option bitvec))) : Prop := dinv = None <-> dl = [0].

Section Codes.
  Context (ll dl : list N) (inv : list (option bitvec)) (dinv : option (list (option bitvec))).
  Context (HI : inv_of ll inv) (HD : dinv_of dl dinv) (HN : dinv_none dl dinv).

  Lemma run_verdict r : code_value (Reference r) ->
    (length_has_code ll r -> exists bs, forall out, writes out (encode_run inv (r_run r)) bs) /\ (~ length_has_code ll r -> panics (encode_run inv (r_run r))).
  Proof.
    intros [_ HR]. assert (RR : r_run r = ref_len r) by reflexivity. rewrite RR. destruct (encode_length_spec (ref_len r)) as (sym & x & E1 & E2 & TR & UN); [unfold ref_len; lia|].
    assert (BS := table_row_length _ _ _ _ TR).
    assert (S258 : ref_len r = 258 -> sym = 285). { intro X. rewrite X in E1. change (encode_run_length 258) with (@Ok N 285) in E1. congruence. }
    split.
    - intros (s & n & v & T & N258 & HC). assert (s = sym). { destruct (UN _ _ _ T) as [->|[-> X]]; [reflexivity|]. rewrite (N258 X) in *. symmetry. auto. } subst s.
      destruct (rfc_code ll sym) as [lw|] eqn:EC; [|congruence]. eexists. intro out. eapply writes_run; try eassumption; [lia|]. destruct x as [[b v']|]; cbn [fst snd] in *; lia.
    - intro NL. eapply panics_run; try eassumption; [lia|]. destruct (rfc_code ll sym) eqn:EC; [|reflexivity]. destruct NL. eexists sym, _, _. split; [exact TR|]. split; [exact S258|congruence].
  Qed.

  Lemma code_does c v : code_value c -> code_verdict ll dl c v -> does v (compressed_code inv dinv c).
  Proof.
    intros HV HC. destruct HC as [b HC|b HC|r HL HDC|r NL|r HL ND|r HL RD ED|r HL RD ED ND].
    - cbn [compressed_code]. eapply does_lift; [apply (get_inv ll); [exact HI|cbn in HV; lia]|]. destruct (rfc_code ll b); [|congruence]. cbn [opt_vec]. eapply does_writes1. intro. apply writes_vec.
    - cbn [compressed_code]. eapply does_lift; [apply (get_inv ll); [exact HI|cbn in HV; lia]|]. rewrite HC. apply does_fail.
    - cbn [compressed_code]. destruct (proj1 (run_verdict r HV) HL) as (bs & W). apply does_bind; [exact (does_writes1 _ _ W)|]. destruct HDC as (s & n & x & T & HC).
      assert (BD := table_row_distance _ _ _ _ T). destruct (encode_distance_spec (r_dist r)) as (ds & eb & ev & E3 & TR3 & UN3); [lia|]. destruct (UN3 _ _ _ T) as (-> & -> & ->).
      destruct (rfc_code dl ds) as [dw|] eqn:EC; [|congruence]. eapply does_writes1. intro out. eapply writes_dist; try eassumption; lia.
    - cbn [compressed_code]. apply does_bind_l; [discriminate|]. apply does_panics. exact (proj2 (run_verdict r HV) NL).
    - cbn [compressed_code]. destruct (proj1 (run_verdict r HV) HL) as (bs & W). apply does_bind; [exact (does_writes1 _ _ W)|]. destruct HV as [HV _]. destruct (far_distance _ HV ND) as (msg & E).
      unfold encode_distance. rewrite E. apply does_panic_lift.
    - cbn [compressed_code]. destruct (proj1 (run_verdict r HV) HL) as (bs & W). apply does_bind; [exact (does_writes1 _ _ W)|].
      destruct (encode_distance_spec (r_dist r)) as (ds & eb & ev & E3 & TR3 & UN3); [lia|]. unfold encode_distance. eapply does_lift; [exact E3|]. cbn iota beta. rewrite (proj2 HN ED). apply does_fail.
    - cbn [compressed_code]. destruct (proj1 (run_verdict r HV) HL) as (bs & W). apply does_bind; [exact (does_writes1 _ _ W)|].
      destruct (encode_distance_spec (r_dist r)) as (ds & eb & ev & E3 & TR3 & UN3); [lia|]. unfold encode_distance. eapply does_lift; [exact E3|]. cbn iota beta.
      assert (BD := table_row_distance _ _ _ _ TR3). unfold dinv_of in HD. destruct dinv as [di|]; [|now destruct ED; apply HN].
      eapply does_lift; [unfold get_idx; rewrite HD by lia; reflexivity|]. destruct (rfc_code dl ds) eqn:EC; [destruct ND; exists ds, eb, ev; split; [exact TR3|congruence]|]. cbn [opt_vec unwrap]. apply does_panic_lift.
  Qed.

  Lemma codes_does cs v : Forall code_value cs -> first_fault (code_verdict ll dl) cs v -> does v (compressed_codes_loop inv dinv cs).
  Proof.
    intros HV HF. induction HF as [|c cs v HC HF IH|c cs v HC NV]; cbn [compressed_codes_loop].
    - apply (does_writes1 _ []). intro. apply writes_ret.
    - inversion HV; subst. apply does_bind; [now apply code_does|]. now apply IH.
    - inversion HV; subst. apply does_bind_l; [exact NV|]. now apply code_does.
  Qed.
End Codes.

Lemma body_does ll dl lt dt cs v : tree_of ll lt -> (List.length ll <= 288)%nat -> dist_table dl dt -> (dt = None <-> dl = [0]) ->
  Forall code_value cs -> body_verdict ll dl cs v -> does v (compressed_codes lt dt cs).
Proof.
  intros HT HL HDT HZ HV HB. destruct (tree_invert_spec ll lt (proj1 HT) HL) as (inv & E1 & E2 & E3).
  assert (IV : inv_of ll inv) by (split; assumption). destruct (inv_opt dl dt HDT) as (dinv & E4 & DV).
  assert (DN : dinv_none dl dinv). { unfold dinv_none. rewrite <- HZ. unfold invert_opt in E4. destruct dt as [t|]; [|injection E4 as <-; tauto]. destruct (tree_invert t); cbn in E4; try discriminate. injection E4 as <-. split; discriminate. }
  unfold compressed_codes. eapply does_lift; [exact E1|]. eapply does_lift; [exact E4|]. apply does_assert; [now rewrite E2|].
  destruct HB as [HF HE|HF HE|v HF NV].
  - apply does_bind; [exact (codes_does _ _ _ _ IV DV DN _ _ HV HF)|]. eapply does_lift; [apply (get_inv ll inv 256 IV); lia|]. destruct (rfc_code ll 256); [|congruence]. cbn [opt_vec]. eapply does_lift; [reflexivity|].
    eapply does_writes1. intro. apply writes_vec.
  - apply does_bind; [exact (codes_does _ _ _ _ IV DV DN _ _ HV HF)|]. eapply does_lift; [apply (get_inv ll inv 256 IV); lia|]. rewrite HE. cbn [opt_vec unwrap]. apply does_panic_lift.
  - apply does_bind_l; [exact NV|]. exact (codes_does _ _ _ _ IV DV DN _ _ HV HF).
Qed.

(** ** Reading a header that stops early *)
Definition agrees {A} (f : eofk -> M (list bool) A) : Prop :=
  forall bs k k', f k bs = f k' bs \/ (fst (f k bs) = eof_out k /\ fst (f k' bs) = eof_out k').
Lemma agrees_const {A} (m : M (list bool) A) : agrees (fun _ => m).
Proof. intros bs k k'. now left. Qed.
Lemma agrees_rbl : agrees rbl.
Proof. intros [|b bs] k k'; [right; split; [destruct k|destruct k']; reflexivity|now left]. Qed.
Lemma agrees_bind {A B} (m : eofk -> M _ A) (g : A -> eofk -> M _ B) : agrees m -> (forall a, agrees (g a)) -> agrees (fun k => bind (m k) (fun a => g a k)).
Proof.
  intros H1 H2 bs k k'. unfold bind. destruct (H1 bs k k') as [E|[E1 E2]].
  - rewrite E. destruct (m k' bs) as [o bs1]. destruct o; [apply H2|auto..].
  - destruct (m k bs) as [o b1], (m k' bs) as [o' b2]. cbn [fst] in *. subst o o'. right. split; [destruct k|destruct k']; reflexivity.
Qed.
Create HintDb agree discriminated.
#[export] Hint Resolve agrees_const agrees_rbl : agree.

Lemma agrees_read_part_loop is : forall res, agrees (fun k => read_part_loop (rbl k) is res).
Proof.
  induction is; intro; cbn [read_part_loop]; auto with agree.
  apply (agrees_bind rbl (fun b k => read_part_loop (rbl k) is (if b then _ else _))); auto with agree.
Qed.
#[export] Hint Resolve agrees_read_part_loop : agree.
Lemma agrees_read_part n : agrees (fun k => read_part (rbl k) n).
Proof. unfold read_part. apply (agrees_bind (fun _ => _) (fun _ k => _)); auto with agree. Qed.
#[export] Hint Resolve agrees_read_part : agree.
Lemma agrees_decode_node n : agrees (fun k => decode_node (rbl k) n).
Proof.
  induction n; cbn [decode_node]; auto with agree.
  apply (agrees_bind rbl (fun (b : bool) k => if b then decode_node (rbl k) n2 else decode_node (rbl k) n1)); auto with agree.
  intros []; auto.
Qed.
Lemma agrees_decode_symbol t : agrees (fun k => decode_symbol (rbl k) t).
Proof. apply agrees_decode_node. Qed.
#[export] Hint Resolve agrees_decode_symbol : agree.
Lemma agrees_read_cl_loop is : forall lens, agrees (fun k => read_cl_loop (rbl k) is lens).
Proof.
  induction is; intro; cbn [read_cl_loop]; auto with agree.
  apply (agrees_bind (fun k => read_part (rbl k) 3) (fun v k => _)); auto with agree. intro v.
  apply (agrees_bind (fun _ => _) (fun l k => read_cl_loop (rbl k) is l)); auto with agree.
Qed.
#[export] Hint Resolve agrees_read_cl_loop : agree.
Lemma agrees_read_lens_loop f t len : forall i rv rl cl, agrees (fun k => read_lens_loop (rbl k) f t len i rv rl cl).
Proof.
  induction f; intros; cbn [read_lens_loop]; auto with agree.
  assert (C : forall i rv rl cl,
     agrees (fun k => if Nat.leb len i then ret (rl, cl) else read_lens_loop (rbl k) f t len i rv rl cl)).
  { intros. destruct (Nat.leb len i0); auto with agree. }
  destruct (0 <? rl).
  - destruct rv; auto with agree.
    apply (agrees_bind (fun _ => _) (fun l k => _)); auto with agree.
  - apply (agrees_bind (fun k => decode_symbol (rbl k) t) (fun sym k => _)); auto with agree. intro sym.
    destruct (sym <=? 15).
    { apply (agrees_bind (fun _ => _) (fun l k => _)); auto with agree. }
    destruct (sym =? 16).
    { apply (agrees_bind (fun _ => _) (fun l k => _)); auto with agree. intros _.
      apply (agrees_bind (fun k => read_part (rbl k) 2) (fun l k => _)); auto with agree. }
    destruct (sym =? 17).
    { apply (agrees_bind (fun k => read_part (rbl k) 3) (fun l k => _)); auto with agree. }
    destruct (sym =? 18).
    { apply (agrees_bind (fun k => read_part (rbl k) 7) (fun l k => _)); auto with agree. }
    auto with agree.
Qed.
#[export] Hint Resolve agrees_read_lens_loop : agree.
Lemma agrees_read_codes : agrees (fun k => read_codes (rbl k)).
Proof.
  unfold read_codes.
  apply (agrees_bind (fun k => read_part (rbl k) 5) (fun l k => _)); auto with agree. intro hlit.
  apply (agrees_bind (fun k => read_part (rbl k) 5) (fun l k => _)); auto with agree. intro hdist.
  apply (agrees_bind (fun k => read_part (rbl k) 4) (fun l k => _)); auto with agree. intro hclen.
  do 4 (apply (agrees_bind (fun k => read_part (rbl k) 3) (fun l k => _)); [auto with agree|intro];
        apply (agrees_bind (fun _ => _) (fun l k => _)); [auto with agree|intro]).
  apply (agrees_bind (fun k => read_cl_loop (rbl k) _ _) (fun l k => _)); [auto with agree|intro].
  apply (agrees_bind (fun _ => _) (fun l k => _)); [auto with agree|intro].
  apply (agrees_bind (fun k => read_lens_loop (rbl k) _ _ _ _ _ _ _) (fun l k => _));
    [auto with agree|intros [rl cl]].
  apply (agrees_bind (fun _ => _) (fun l k => _)); [auto with agree|intro].
  apply (agrees_bind (fun _ => _) (fun l k => _)); [auto with agree|intro].
  destruct (match skipn _ cl with [x] => 0 =? x | _ => false end); auto with agree.
Qed.

Lemma si_codes bits : fst (read_codes si_read_bit (bv_iter (bitvec_of bits))) = fst (read_codes (rbl (EofPanic "TODO: EOF")) bits).
Proof. destruct (sim_read_codes _ _ _ (sim_si bits) bits _ (Rsi_new bits)) as (it & ER & _). now rewrite ER. Qed.

Lemma header_read ll dl hdr extra : dyn_header ll dl hdr -> exists lt dt,
  fst (read_codes si_read_bit (bv_iter (bitvec_of (hdr ++ extra)))) = Ok (lt, dt) /\ tree_of ll lt /\ (List.length ll <= 288)%nat /\ dist_table dl dt /\ (dt = None <-> dl = [0]).
Proof.
  intro HD. destruct (header_build _ _ _ HD) as ([lt dt] & HT & E1 & E2). cbn [fst snd] in *. exists lt, dt. rewrite si_codes.
  assert (EK : read_codes (rbl (EofPanic "TODO: EOF")) (hdr ++ extra) = (Ok (lt, dt), extra)). { apply read_codes_spec. exists hdr. auto. }
  rewrite EK. split; [reflexivity|]. destruct (dyn_tables _ _ _ HD) as (lt' & dt' & ER & TL & LL & TD). rewrite si_codes in ER.
  assert (EH : read_codes (rbl (EofPanic "TODO: EOF")) hdr = (Ok (lt, dt), [])). { apply read_codes_spec. exists hdr. now rewrite app_nil_r. }
  rewrite EH in ER. injection ER as <- <-. split; [exact TL|]. split; [exact LL|]. split; [exact TD|]. destruct dt as [t|]; [|tauto]. split; [discriminate|]. intro X. now destruct E2.
Qed.

Lemma no_msg_panic m : no_msg (EofPanic m).
Proof. intros A s E. discriminate E. Qed.

Lemma header_refused msg hdr extra : wrong_header msg hdr -> fst (read_codes si_read_bit (bv_iter (bitvec_of (hdr ++ extra)))) = Err (EMsg msg).
Proof. intro HW. now rewrite si_codes, (header_wrong _ _ _ _ HW). Qed.

Lemma header_cut bits : (forall ll dl hdr extra, bits = hdr ++ extra -> ~ dyn_header ll dl hdr) -> (forall msg hdr extra, bits = hdr ++ extra -> ~ wrong_header msg hdr) ->
  fst (read_codes si_read_bit (bv_iter (bitvec_of bits))) = Panic "TODO: EOF".
Proof.
  intros HN HW. rewrite si_codes. destruct (agrees_read_codes bits (EofPanic "TODO: EOF") (EofErr (EMsg ""))) as [E|[E _]]; [|rewrite E; reflexivity]. exfalso.
  assert (R := safe_read_codes (EMsg "") bits). rewrite <- E in R. destruct (read_codes (rbl (EofPanic "TODO: EOF")) bits) as [o rest] eqn:ER. cbn [fst] in *. destruct o as [[lt dt]|er| |]; try contradiction.
  - apply read_codes_sound in ER. destruct ER as (w & EW & ll & dl & HD & _). exact (HN ll dl w rest EW HD).
  - destruct (ioe_read_codes _ _ _ _ ER) as [(s & ->)|[_ X]]; [|discriminate X]. destruct (header_msg _ _ _ _ (no_msg_panic _) ER) as (w & EW & X). exact (HW _ _ _ EW X).
Qed.

(** ** Blocks *)
Lemma block_does b v : block_value b -> block_verdict b v -> does v (compressed_block b).
Proof.
  intros HV HB. destruct HB as [data L|data L|cs v HB|ll dl hdr extra cs v HD HB|msg hdr extra cs HW|bits cs HN HW]; cbn [compressed_block].
  - apply does_writes. intro out. destruct (pads_exists (List.length (out ++ lsb 2 0))) as (k & HP). eexists. apply writes_bind; [apply (writes_bits_val out 2 0); lia|]. apply writes_length_prefixed; [exact HP|exact HV|lia].
  - apply does_bind; [eapply does_writes1; intro; apply (writes_bits_val out 2 0); lia|]. unfold bw_write_length_prefixed. apply does_bind.
    + apply does_writes. intro out. destruct (pads_exists (List.length out)) as (k & HP). eexists. apply writes_align. exact HP.
    + cbn zeta. apply does_bind_l; [discriminate|]. destruct (N.leb_spec (N.of_nat (List.length data)) 65535); [lia|]. apply does_fail.
  - destruct fixed_length_tree as (lt & EL & TL). destruct fixed_distance_tree as (dt & ED & TD & _).
    apply does_bind; [eapply does_writes1; intro; apply (writes_bits_val out 2 1); lia|]. eapply does_lift; [exact EL|]. eapply does_lift; [exact ED|].
    apply (body_does fixed_ll fixed_dl); [exact TL|exact fixed_ll_288|exact TD| |exact HV|exact HB]. split; [discriminate|]. intro X. apply (f_equal (@List.length N)) in X. discriminate X.
  - destruct (header_read ll dl hdr extra HD) as (lt & dt & ER & TL & LL & TD & TZ). apply does_bind; [eapply does_writes1; intro; apply (writes_bits_val out 2 2); lia|].
    apply does_bind; [eapply does_writes1; intro; apply writes_vec|]. eapply does_lift; [exact ER|]. cbn iota beta. apply (body_does ll dl); try assumption. exact (proj2 HV).
  - apply does_bind; [eapply does_writes1; intro; apply (writes_bits_val out 2 2); lia|]. apply does_bind; [eapply does_writes1; intro; apply writes_vec|].
    rewrite (header_refused _ _ _ HW). apply does_lift_l; [discriminate|exact I].
  - apply does_bind; [eapply does_writes1; intro; apply (writes_bits_val out 2 2); lia|]. apply does_bind; [eapply does_writes1; intro; apply writes_vec|].
    rewrite (header_cut _ HN HW). apply does_panic_lift.
Qed.

Lemma blocks_does bs v : Forall block_value bs -> first_fault block_verdict bs v ->
  forall out w, wst out w -> meets v (fst (compress_blocks bs w)) /\ (v = Written -> exists out', wst out' (snd (compress_blocks bs w)) /\ (List.length out' mod 8 = 0)%nat).
Proof.
  intros HV HF. induction HF as [|b bs v HB HF IH|b bs v HB NV]; intros out w HW; cbn [compress_blocks].
  - destruct (pads_exists (List.length out)) as (k & HP). destruct (writes_align out k HP w HW) as (w' & E & HW'). rewrite E. split; [exact I|]. intros _. exists (out ++ repeat false k). split; [exact HW'|].
    rewrite app_length, repeat_length. now destruct HP.
  - inversion HV as [|? ? V1 V2]; subst. assert (D := block_does b Written V1 HB). destruct (writes_bit out (match bs with [] => true | _ => false end) w HW) as (w1 & E1 & HW1).
    unfold bind. rewrite E1. destruct (D _ _ HW1) as [M1 S1]. destruct (compressed_block b w1) as [o w2]. cbn [fst snd] in *. destruct o; try contradiction. destruct (S1 eq_refl) as (out' & HW2). exact (IH V2 out' w2 HW2).
  - inversion HV as [|? ? V1 V2]; subst. assert (D := block_does b v V1 HB). split; [|congruence]. destruct (writes_bit out (match bs with [] => true | _ => false end) w HW) as (w1 & E1 & HW1).
    unfold bind. rewrite E1. destruct (D _ _ HW1) as [M1 _]. destruct (compressed_block b w1) as [o w2]. cbn [fst snd] in *. destruct v, o; try contradiction; try congruence; exact I.
Qed.

Lemma C74_lemma : forall blocks v, Forall block_value blocks -> first_fault block_verdict blocks v -> meets v (compress_all blocks).
Proof.
  intros bs v HV HF. destruct (blocks_does bs v HV HF [] _ wst_new) as [M1 S1]. unfold compress_all. destruct (compress_blocks bs (bw_new new_sink)) as [o w]. cbn [fst snd] in *.
  destruct v, o; try contradiction; try exact I. destruct (S1 eq_refl) as (out' & HW & HM). cbn [obind]. destruct (wst_into_inner _ _ HW HM) as (s & E & _). rewrite E. exact I.
Qed.

(** ** Every value has a verdict *)
Lemma code_decided ll dl c : code_value c -> exists v, code_verdict ll dl c v.
Proof.
  destruct c as [b|r]; intro HV.
  - destruct (rfc_code ll b) eqn:E; [exists Written; constructor; congruence|exists Refused; now constructor].
  - destruct HV as [HD HR]. assert (L : length_has_code ll r \/ ~ length_has_code ll r).
    { destruct (encode_length_spec (ref_len r)) as (sym & x & E1 & E2 & TR & UN); [unfold ref_len; lia|].
      assert (S258 : ref_len r = 258 -> sym = 285). { intro X. rewrite X in E1. change (encode_run_length 258) with (@Ok N 285) in E1. congruence. }
      destruct (rfc_code ll sym) eqn:EC; [left; eexists sym, _, _; split; [exact TR|]; split; [exact S258|congruence]|right]. intros (s & n & v & T & N258 & HC).
      destruct (UN _ _ _ T) as [->|[-> X]]; [congruence|]. rewrite (N258 X), (S258 X) in *. congruence. }
    destruct L as [L|L]; [|exists Crashes; now apply CV_no_length].
    assert (R : 1 <= r_dist r <= 32768 \/ ~ 1 <= r_dist r <= 32768) by lia. destruct R as [R|R]; [|exists Crashes; now apply CV_bad_distance].
    destruct (list_eq_dec N.eq_dec dl [0]) as [EZ|NZ]; [exists Refused; now apply CV_no_distances|].
    destruct (encode_distance_spec (r_dist r) R) as (ds & eb & ev & E3 & TR3 & UN3). destruct (rfc_code dl ds) eqn:EC.
    + exists Written. apply CV_reference; [exact L|]. exists ds, eb, ev. split; [exact TR3|congruence].
    + exists Crashes. apply CV_no_distance; auto. intros (s & n & v & T & HC). destruct (UN3 _ _ _ T) as (-> & -> & ->). congruence.
Qed.
Lemma fault_decided {A} (P : A -> Prop) (one : A -> verdict -> Prop) : (forall x, P x -> exists v, one x v) -> forall l, Forall P l -> exists v, first_fault one l v.
Proof.
  intros H l. induction l as [|x l IH]; intro F; [exists Written; constructor|]. inversion F as [|? ? F1 F2]; subst. destruct (H x F1) as (v & HV). destruct (IH F2) as (v' & HV').
  destruct v; [exists v'; now constructor|..]; (eexists; apply FF_here; [exact HV|discriminate]).
Qed.
Lemma body_decided ll dl cs : Forall code_value cs -> exists v, body_verdict ll dl cs v.
Proof.
  intro F. destruct (fault_decided code_value (code_verdict ll dl) (fun c => code_decided ll dl c) cs F) as (v & HV).
  destruct v; [destruct (rfc_code ll 256) eqn:E; [exists Written; constructor; [exact HV|congruence]|exists Crashes; now constructor]|..]; (eexists; apply BV_code; [exact HV|discriminate]).
Qed.
Lemma block_decided b : block_value b -> exists v, block_verdict b v.
Proof.
  destruct b as [data|cs|trees cs]; intro HV.
  - destruct (N.leb_spec (N.of_nat (List.length data)) 65535); eexists; [now apply KV_stored|now apply KV_too_long].
  - destruct (body_decided fixed_ll fixed_dl cs HV) as (v & H). exists v. now constructor.
  - destruct HV as [(bits & ->) HV]. destruct (read_codes (rbl (EofPanic "TODO: EOF")) bits) as [o rest] eqn:ER. destruct o as [[lt dt]| | |].
    + apply read_codes_sound in ER. destruct ER as (w & -> & ll & dl & HD & _). destruct (body_decided ll dl cs HV) as (v & H). exists v. now apply (KV_dynamic ll dl).
    + destruct (ioe_read_codes _ _ _ _ ER) as [(s & ->)|[_ X]]; [|discriminate X]. destruct (header_msg _ _ _ _ (no_msg_panic _) ER) as (w & -> & X). exists Refused. eapply KV_wrong_header. exact X.
    + exists Crashes. apply KV_cut_short.
      * intros ll dl hdr extra -> HD. destruct (header_read ll dl hdr extra HD) as (lt & dt & E & _). rewrite si_codes, ER in E. discriminate.
      * intros msg hdr extra -> HW. assert (E := header_refused msg hdr extra HW). rewrite si_codes, ER in E. discriminate.
    + exists Crashes. apply KV_cut_short.
      * intros ll dl hdr extra -> HD. destruct (header_read ll dl hdr extra HD) as (lt & dt & E & _). rewrite si_codes, ER in E. discriminate.
      * intros msg hdr extra -> HW. assert (E := header_refused msg hdr extra HW). rewrite si_codes, ER in E. discriminate.
Qed.
Lemma C74_lemma_total : forall blocks, Forall block_value blocks -> exists v, first_fault block_verdict blocks v.
Proof. intros blocks H. exact (fault_decided block_value block_verdict block_decided blocks H). Qed.

(** The property itself is false. *)
Lemma C74_refuted : exists blocks msg, Forall block_value blocks /\ compress_all blocks = Panic msg.
Proof. exists [FixedHuffman [Reference (mkRef 0 0)]]. eexists. split; [constructor; [constructor; [split; reflexivity|constructor]|constructor]|]. vm_compute. reflexivity. Qed.

Lemma C07_lemma_limit : forall data, 65535 < N.of_nat (List.length data) -> compress_all [Uncompressed data] = Err (EMsg "data too long to store").
Proof.
  intros data L. unfold compress_all. cbn [compress_blocks compressed_block]. destruct (writes_bit [] true _ wst_new) as (w1 & E1 & W1).
  destruct (writes_bits_val _ 2 0 ltac:(lia) w1 W1) as (w2 & E2 & W2). destruct (pads_exists (List.length (([] ++ [true]) ++ lsb (N.to_nat 2) 0))) as (k & HP). destruct (writes_align _ _ HP w2 W2) as (w3 & E3 & W3).
  unfold bind at 1. rewrite E1. unfold bind at 1 2. rewrite E2. unfold bw_write_length_prefixed, bind at 1. rewrite E3. cbn zeta. unfold bind at 1. destruct (N.leb_spec (N.of_nat (List.length data)) 65535); [lia|]. reflexivity.
Qed.
