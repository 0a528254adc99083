(** Proofs of the Huffman-level properties; the statements are repeated, with comments, in P_huff.v. *)
From Verif Require Import Base M_bit M_lib M_code_tree M_huffman M_parse Spec Clients L_bits L_reader L_bitprops L_stored L_tree L_huff L_header L_safe L_parse.
From Coq Require Import ZArith ZifyBool ZifyNat ZifyN.
Ltac Zify.zify_post_hook ::= Z.div_mod_to_equations.
Local Open Scope N_scope.
Local Open Scope model_scope.

(** Transfer of [pspec], one direction, with the resulting reader. *)
Lemma pspec_at_ok {A} (m1 : M (list bool) A) (m2 : M bit_reader A) P bytes e off r a w :
  pspec m1 P -> sim (Rat bytes e) m1 m2 -> bytes_ok bytes -> at_bit bytes e off r ->
  bits_at bytes off w -> P a w -> exists r', m2 r = (Ok a, r') /\ at_bit bytes e (off + List.length w) r'.
Proof.
  intros HP HS HB HA HW HPW. assert (HO := proj1 (at_bit_Rbr _ _ _ _ HB HA)).
  destruct (at_bit_exists bytes e (off + List.length w) HB) as (r' & HA'); [now apply bits_at_length|].
  exists r'. split; [|exact HA']. apply (pspec_at m1 m2 P bytes e off r a r' HP HS HB HA). eauto.
Qed.

Lemma safe_at {A} (m1 : M (list bool) A) (m2 : M bit_reader A) bytes e off r :
  safe m1 -> sim (Rat bytes e) m1 m2 -> bytes_ok bytes -> at_bit bytes e off r -> returns (fst (m2 r)).
Proof.
  intros HS HM HB HA. destruct (HM _ _ (at_bit_Rat _ _ _ _ HB HA)) as (r' & E & _). rewrite E. apply HS.
Qed.

Lemma bits_at_split bytes off n : (off + n <= 8 * List.length bytes)%nat ->
  bits_at bytes off (firstn n (skipn off (bits_of_bytes bytes)))
  /\ List.length (firstn n (skipn off (bits_of_bytes bytes))) = n.
Proof.
  intro H. split.
  - exists (skipn n (skipn off (bits_of_bytes bytes))). now rewrite firstn_skipn.
  - rewrite firstn_length, skipn_length, bits_of_bytes_length. lia.
Qed.

(** The only error is that of the end of the input. *)
Definition only {A} (er : err) (m : M (list bool) A) : Prop := forall bs er', fst (m bs) = Err er' -> er' = er.
Lemma only_at {A} (m1 : M (list bool) A) (m2 : M bit_reader A) x bytes e off r er :
  only x m1 -> sim (Rat bytes e) m1 m2 -> bytes_ok bytes -> at_bit bytes e off r -> fst (m2 r) = Err er -> er = x.
Proof.
  intros HO HM HB HA E. destruct (HM _ _ (at_bit_Rat _ _ _ _ HB HA)) as (r' & E' & _). rewrite E' in E. cbn [fst] in E. exact (HO _ _ E).
Qed.
Lemma only_ret {A} er (a : A) : only er (ret a). Proof. intros bs er' H. discriminate H. Qed.
Lemma only_bind {A B} er (m : M _ A) (g : A -> M _ B) : only er m -> (forall a, only er (g a)) -> only er (bind m g).
Proof.
  intros H1 H2 bs er'. unfold bind. specialize (H1 bs). destruct (m bs) as [[a|e| |] bs']; cbn [fst] in *; intro H; try discriminate H.
  - exact (H2 _ _ _ H).
  - injection H as <-. now apply H1.
Qed.
Lemma only_part er n : n <= 16 -> only er (read_part (rbl (EofErr er)) n).
Proof.
  intros H bs er' E. rewrite read_part_spec in E by assumption. destruct (Nat.leb _ _); cbn [fst eof_out] in E; congruence.
Qed.
Lemma only_run_length er sym : 257 <= sym <= 285 -> only er (decode_run_length (rbl (EofErr er)) sym).
Proof.
  intro H. unfold decode_run_length. apply only_bind.
  - intros bs er' E. unfold ensure in E. assert (X : (257 <=? sym) && (sym <=? 287) = true) by lia. rewrite X in E. discriminate E.
  - intros _. destruct (N.leb_spec sym 264); [apply only_ret|]. destruct (N.leb_spec sym 284).
    + apply only_bind; [intros bs er' E; unfold assert_ in E; destruct (_ <? 6); discriminate E|]. intros _.
      apply only_bind; [apply only_part; lia|]. intro. apply only_ret.
    + destruct (N.eqb_spec sym 285); [apply only_ret|lia].
Qed.
Lemma only_distance er sym : sym <= 29 -> only er (decode_distance (rbl (EofErr er)) sym).
Proof.
  intro H. unfold decode_distance. destruct (N.leb_spec sym 3); [apply only_ret|]. destruct (N.leb_spec sym 29); [|lia].
  apply only_bind; [apply only_part; lia|]. intro. apply only_ret.
Qed.

Lemma table_at (decode : forall S, M S bool -> M S N) table bytes e off r sym extra base :
  (forall k, pspec (decode _ (rbl k)) (fun run w => exists extra e, table_row table run sym extra e /\ w = lsb (N.to_nat extra) e)) ->
  (forall er, safe (decode _ (rbl (EofErr er)))) ->
  (forall er, only er (decode _ (rbl (EofErr er)))) ->
  (forall R k rb, sim R (rbl k) rb -> sim R (decode _ (rbl k)) (decode bit_reader rb)) ->
  keys_unique table = true ->
  bytes_ok bytes -> at_bit bytes e off r -> In (sym, extra, base) table ->
  if (off + N.to_nat extra <=? 8 * List.length bytes)%nat
  then exists r', decode _ br_read_bit r
         = (Ok (base + lsb_value (firstn (N.to_nat extra) (skipn off (bits_of_bytes bytes)))), r')
         /\ at_bit bytes e (off + N.to_nat extra) r'
  else fst (decode _ br_read_bit r) = Err (EIo e).
Proof.
  intros HP HSF HON HSIM HK HB HA HI.
  assert (SM := HSIM _ _ _ (sim_Rat bytes e HB)).
  destruct (Nat.leb_spec (off + N.to_nat extra) (8 * List.length bytes)) as [L|L].
  - destruct (bits_at_split bytes off (N.to_nat extra) L) as [BA BL].
    set (w := firstn (N.to_nat extra) (skipn off (bits_of_bytes bytes))) in *.
    destruct (pspec_at_ok _ _ _ bytes e off r (base + lsb_value w) w (HP _) SM HB HA BA) as (r' & E & A').
    + exists extra, (lsb_value w). split; [|now rewrite lsb_of_value_n].
      exists base. split; [exact HI|]. split; [|reflexivity].
      assert (B := lsb_value_bound w). rewrite BL, N2Nat.id in B. exact B.
    + rewrite BL in A'. eauto.
  - assert (SF := safe_at _ _ bytes e off r (HSF _) SM HB HA).
    destruct (decode bit_reader br_read_bit r) as [[a|er| |] r'] eqn:E; cbn [fst returns] in *; try tauto;
      [|f_equal; exact (only_at _ _ _ bytes e off r er (HON _) SM HB HA (f_equal fst E))].
    apply (pspec_at _ _ _ bytes e off r a r' (HP _) SM HB HA) in E.
    destruct E as (w & BA & (x & v & (b' & HI' & _) & ->) & HA').
    apply frow_spec in HI; [|exact HK]. apply frow_spec in HI'; [|exact HK]. rewrite HI in HI'. injection HI' as <- <-.
    destruct (at_bit_Rbr _ _ _ _ HB HA) as [HO _].
    apply bits_at_length in BA; [|exact HO]. rewrite lsb_length in BA. lia.
Qed.

Lemma C09_lemma_encode : forall len, 3 <= len <= 258 ->
  exists sym x,
    encode_run_length len = Ok sym /\ extra_run_length len = Ok x
    /\ let extra := match x with Some p => fst p | None => 0 end in
       let val := match x with Some p => snd p | None => 0 end in
       table_row length_table len sym extra val
       /\ (forall s n v, table_row length_table len s n v -> s = sym \/ (s = 284 /\ len = 258))
       /\ (forall bytes e off r, bytes_ok bytes -> at_bit bytes e off r ->
             bits_at bytes off (lsb (N.to_nat extra) val) ->
             exists r', decode_run_length br_read_bit sym r = (Ok len, r')
                        /\ at_bit bytes e (off + N.to_nat extra) r').
Proof.
  intros len H. destruct (encode_length_spec len H) as (sym & x & E1 & E2 & TR & UN).
  exists sym, x. split; [exact E1|]. split; [exact E2|]. split; [exact TR|]. split; [exact UN|].
  intros bytes e off r HB HA BA.
  destruct (pspec_at_ok _ _ _ bytes e off r len _ (pspec_run_length _ sym)
              (sim_decode_run_length _ _ _ (sim_Rat bytes e HB) sym) HB HA BA) as (r' & E & A').
  - eauto.
  - rewrite lsb_length in A'. eauto.
Qed.

Lemma C09_lemma_decode : forall bytes e off r sym, bytes_ok bytes -> at_bit bytes e off r ->
  (forall extra base, In (sym, extra, base) length_table ->
     if (off + N.to_nat extra <=? 8 * List.length bytes)%nat
     then exists r', decode_run_length br_read_bit sym r
            = (Ok (base + lsb_value (firstn (N.to_nat extra) (skipn off (bits_of_bytes bytes)))), r')
            /\ at_bit bytes e (off + N.to_nat extra) r'
     else fst (decode_run_length br_read_bit sym r) = Err (EIo e))
  /\ (~ 257 <= sym <= 285 ->
      decode_run_length br_read_bit sym r
      = (Err (EMsg (if (sym =? 286) || (sym =? 287) then "reserved symbol" else "decompressor bug")), r)).
Proof.
  intros bytes e off r sym HB HA. split.
  - intros extra base HI.
    refine (table_at (fun S rb => decode_run_length rb sym) length_table bytes e off r sym extra base _ _ _ _ length_keys HB HA HI).
    + intro. apply pspec_run_length.
    + intro. apply safe_run_length.
    + intro. apply only_run_length. apply length_row_bounds in HI. tauto.
    + intros. now apply sim_decode_run_length.
  - intro NS. unfold decode_run_length, ensure, bind, ret, fail.
    destruct (N.leb_spec 257 sym); [destruct (N.leb_spec sym 287)|]; cbn [andb].
    + destruct (N.leb_spec sym 264); [lia|]. destruct (N.leb_spec sym 284); [lia|]. destruct (N.eqb_spec sym 285); [lia|].
      destruct (N.eqb_spec sym 286), (N.eqb_spec sym 287); try reflexivity; lia.
    + destruct (N.eqb_spec sym 286), (N.eqb_spec sym 287); try reflexivity; lia.
    + destruct (N.eqb_spec sym 286), (N.eqb_spec sym 287); try reflexivity; lia.
Qed.

Lemma C10_lemma_encode : forall dist, 1 <= dist <= 32768 ->
  exists sym extra val,
    huff_encode_distance dist = Ok (Some (sym, extra, val))
    /\ table_row distance_table dist sym extra val
    /\ (forall s n v, table_row distance_table dist s n v -> s = sym /\ n = extra /\ v = val)
    /\ (forall bytes e off r, bytes_ok bytes -> at_bit bytes e off r ->
          bits_at bytes off (lsb (N.to_nat extra) val) ->
          exists r', decode_distance br_read_bit sym r = (Ok dist, r')
                     /\ at_bit bytes e (off + N.to_nat extra) r').
Proof.
  intros d H. destruct (encode_distance_spec d H) as (sym & eb & ev & E1 & TR & UN).
  exists sym, eb, ev. split; [exact E1|]. split; [exact TR|]. split; [exact UN|].
  intros bytes e off r HB HA BA.
  destruct (pspec_at_ok _ _ _ bytes e off r d _ (pspec_distance _ sym)
              (sim_decode_distance _ _ _ (sim_Rat bytes e HB) sym) HB HA BA) as (r' & E & A').
  - eauto.
  - rewrite lsb_length in A'. eauto.
Qed.

Lemma C10_lemma_decode : forall bytes e off r sym, bytes_ok bytes -> at_bit bytes e off r ->
  (forall extra base, In (sym, extra, base) distance_table ->
     if (off + N.to_nat extra <=? 8 * List.length bytes)%nat
     then exists r', decode_distance br_read_bit sym r
            = (Ok (base + lsb_value (firstn (N.to_nat extra) (skipn off (bits_of_bytes bytes)))), r')
            /\ at_bit bytes e (off + N.to_nat extra) r'
     else fst (decode_distance br_read_bit sym r) = Err (EIo e))
  /\ (29 < sym ->
      decode_distance br_read_bit sym r
      = (Err (EMsg (if sym <=? 31 then "reserved distance symbol" else "invalid distance symbol")), r)).
Proof.
  intros bytes e off r sym HB HA. split.
  - intros extra base HI.
    refine (table_at (fun S rb => decode_distance rb sym) distance_table bytes e off r sym extra base _ _ _ _ distance_keys HB HA HI).
    + intro. apply pspec_distance.
    + intro. apply safe_distance.
    + intro. apply only_distance. apply distance_row_bounds in HI. tauto.
    + intros. now apply sim_decode_distance.
  - intro NS. unfold decode_distance. destruct (N.leb_spec sym 3); [lia|]. destruct (N.leb_spec sym 29); [lia|].
    destruct (N.leb_spec sym 31); reflexivity.
Qed.

Lemma C11_lemma : forall lens, N.of_nat (List.length lens) <= 65536 ->
  (complete lens -> exists t, tree_new lens = Ok t)
  /\ (~ complete lens -> exists e, tree_new lens = Err e).
Proof.
  intros lens HL. assert (T := tree_new_spec lens HL). destruct (tree_new lens) as [t|e| |]; try tauto; split; intro H; eauto; tauto.
Qed.

Lemma C12_lemma : forall lens t, (List.length lens <= 288)%nat -> tree_new lens = Ok t ->
  exists inv, tree_invert t = Ok inv /\ List.length inv = 288%nat
    /\ (forall s, s < 288 ->
          nth_error inv (N.to_nat s)
          = Some (match rfc_code lens s with Some w => Some (bitvec_of w) | None => None end))
    /\ (forall s l, nth_error lens (N.to_nat s) = Some l -> l <= 15 ->
          (rfc_code lens s <> None <-> 0 < l)
          /\ forall w, rfc_code lens s = Some w -> N.of_nat (List.length w) = l).
Proof.
  intros lens t HL ET. destruct (tree_invert_spec lens t ET HL) as (inv & E1 & E2 & E3).
  exists inv. split; [exact E1|]. split; [exact E2|]. split; [exact E3|].
  intros s l EN Hl. unfold rfc_code. rewrite EN. destruct (N.leb_spec 1 l); cbn [andb].
  - replace (l <=? 15) with true by (symmetry; apply N.leb_le; lia). split.
    + split; [lia|discriminate].
    + intros w EW. injection EW as <-. unfold msb. rewrite rev_length, lsb_length. lia.
  - split; [|discriminate]. split; [tauto|lia].
Qed.

Lemma C13_lemma : forall lens t, N.of_nat (List.length lens) <= 65536 -> tree_new lens = Ok t ->
  (forall bytes e off r, bytes_ok bytes -> at_bit bytes e off r ->
     (forall s w, rfc_code lens s = Some w -> bits_at bytes off w ->
        exists r', decode_symbol br_read_bit t r = (Ok s, r') /\ at_bit bytes e (off + List.length w) r')
     /\ (forall s r', decode_symbol br_read_bit t r = (Ok s, r') ->
           exists w, rfc_code lens s = Some w /\ bits_at bytes off w /\ at_bit bytes e (off + List.length w) r')
     /\ ((exists s r', decode_symbol br_read_bit t r = (Ok s, r')) \/ fst (decode_symbol br_read_bit t r) = Err (EIo e)))
  /\ (forall s1 s2 w1 w2 more, rfc_code lens s1 = Some w1 -> rfc_code lens s2 = Some w2 ->
        w2 = w1 ++ more -> s1 = s2 /\ more = []).
Proof.
  intros lens t HL ET. assert (TO : tree_of lens t) by (split; assumption).
  assert (PS : forall k, pspec (decode_symbol (rbl k) t) (fun s w => rfc_code lens s = Some w)).
  { intros k bs s bs'. now apply decode_symbol_spec. }
  split.
  - intros bytes e off r HB HA. assert (SM := sim_decode_symbol _ _ _ (sim_Rat bytes e HB) t).
    split; [|split].
    + intros s w HC BA. exact (pspec_at_ok _ _ _ bytes e off r s w (PS _) SM HB HA BA HC).
    + intros s r' E. apply (pspec_at _ _ _ bytes e off r s r' (PS _) SM HB HA) in E.
      destruct E as (w & H1 & H2 & H3). eauto.
    + destruct (SM _ _ (at_bit_Rat _ _ _ _ HB HA)) as (r' & E & _). rewrite E. cbn [fst].
      destruct (decode_symbol_total (EofErr (EIo e)) t (skipn off (bits_of_bytes bytes))) as [(x & b & E')|E']; rewrite E'; [left; exists x, r'; reflexivity|now right].
  - intros s1 s2 w1 w2 more H1 H2 ->.
    assert (ES : s1 = s2).
    { destruct (N.eq_dec s1 s2); [assumption|]. exfalso.
      assert (D1 : decode_symbol (rbl (EofPanic "")) t (w1 ++ more) = (Ok s1, more)) by (apply PS; eauto).
      assert (D2 : decode_symbol (rbl (EofPanic "")) t (w1 ++ more) = (Ok s2, [])) by (apply PS; exists (w1 ++ more); now rewrite app_nil_r).
      rewrite D1 in D2. injection D2 as E _. contradiction. }
    split; [exact ES|]. subst s2. rewrite H1 in H2. injection H2 as E.
    apply (f_equal (@List.length bool)) in E. rewrite app_length in E. destruct more; [reflexivity|cbn in E; lia].
Qed.

(** Tables that decode with the code lengths [dl] on the symbols 0..30. *)
Lemma dist_invert dl t : (exists lens', tree_of lens' t /\ dist_built dl lens') ->
  exists inv, tree_invert t = Ok inv /\ forall s, s <= 30 ->
    nth_error inv (N.to_nat s) = Some (match rfc_code dl s with Some w => Some (bitvec_of w) | None => None end).
Proof.
  intros (lens' & [ET _] & HL & HC). destruct (tree_invert_spec lens' t ET ltac:(lia)) as (inv & E1 & _ & E3).
  exists inv. split; [exact E1|]. intros s Hs. rewrite E3 by lia. now rewrite HC.
Qed.

Lemma C14_lemma : forall bytes e off r, bytes_ok bytes -> at_bit bytes e off r ->
  (forall ll dl hdr, dyn_header ll dl hdr -> bits_at bytes off hdr ->
     exists lt dt r', read_codes br_read_bit r = (Ok (lt, dt), r') /\ at_bit bytes e (off + List.length hdr) r')
  /\ (forall lt dt r', read_codes br_read_bit r = (Ok (lt, dt), r') ->
        exists ll dl hdr inv,
          dyn_header ll dl hdr /\ bits_at bytes off hdr /\ at_bit bytes e (off + List.length hdr) r'
          /\ tree_new ll = Ok lt /\ tree_invert lt = Ok inv
          /\ (forall s, s < 288 -> nth_error inv (N.to_nat s)
                 = Some (match rfc_code ll s with Some w => Some (bitvec_of w) | None => None end))
          /\ match dt with
             | None => dl = [0]
             | Some t => dl <> [0] /\ exists dinv, tree_invert t = Ok dinv /\ forall s, s <= 30 ->
                 nth_error dinv (N.to_nat s)
                 = Some (match rfc_code dl s with Some w => Some (bitvec_of w) | None => None end)
             end)
  /\ returns (fst (read_codes br_read_bit r)).
Proof.
  intros bytes e off r HB HA. assert (SM := sim_read_codes _ _ _ (sim_Rat bytes e HB)).
  split; [|split].
  - intros ll dl hdr HD BA. destruct (header_build _ _ _ HD) as ([lt dt] & HT & _).
    destruct (pspec_at_ok _ _ _ bytes e off r (lt, dt) hdr (read_codes_spec _) SM HB HA BA HT) as (r' & E & A'). eauto.
  - intros lt dt r' E. apply (pspec_at _ _ _ bytes e off r (lt, dt) r' (read_codes_spec _) SM HB HA) in E.
    destruct E as (hdr & BA & (ll & dl & HD & ELT & HDT) & A'). cbn [fst snd] in *.
    assert (LN : (List.length ll <= 288)%nat /\ (1 <= List.length dl <= 32)%nat) by (destruct HD; split; lia).
    destruct (tree_invert_spec ll lt ELT (proj1 LN)) as (inv & I1 & _ & I3).
    exists ll, dl, hdr, inv. repeat (split; [assumption|]).
    destruct dt as [t|]; [|assumption]. destruct HDT as [NZ ED]. split; [assumption|].
    apply dist_invert. assert (T := dist_tree_of_spec dl (proj2 LN) NZ). rewrite ED in T. tauto.
  - exact (safe_at _ _ bytes e off r (safe_read_codes _) SM HB HA).
Qed.

Lemma C15_lemma : forall bytes e off r trees codes r', bytes_ok bytes -> at_bit bytes e off r ->
  read_block r = (Ok (DynamicHuffman trees codes), r') ->
  exists hdr lt dt r2 r3,
    trees = bitvec_of hdr
    /\ bits_at bytes (off + 2) hdr
    /\ at_bit bytes e (off + 2) r2
    /\ read_codes br_read_bit r2 = (Ok (lt, dt), r3)
    /\ at_bit bytes e (off + 2 + List.length hdr) r3
    /\ fst (read_codes si_read_bit (bv_iter trees)) = Ok (lt, dt).
Proof.
  intros bytes e off r trees codes r' HB HA E.
  assert (SB := sim_Rat bytes e HB).
  unfold read_block in E. apply bind_inv in E. destruct E as (ty & r2 & E1 & E).
  apply (pspec_at _ _ _ bytes e off r ty r2 (pspec_read_part (EofErr (EIo e)) 2 ltac:(lia)) (sim_read_part _ _ _ SB 2) HB HA) in E1.
  destruct E1 as (w & _ & (HT & ->) & A2). rewrite lsb_length in A2. change (N.to_nat 2) with 2%nat in A2.
  destruct (ty =? 0).
  { apply bind_inv in E. destruct E as (? & ? & _ & E). apply bind_inv in E. destruct E as (? & ? & _ & E). discriminate. }
  destruct (ty =? 1).
  { apply bind_inv in E. destruct E as (? & ? & _ & E). apply bind_inv in E. destruct E as (? & ? & _ & E).
    apply bind_inv in E. destruct E as (? & ? & _ & E). discriminate. }
  destruct (ty =? 2); [|destruct (ty =? 3); discriminate].
  apply bind_inv in E. destruct E as ([[lt dt] v] & r3 & E1 & E).
  apply bind_inv in E. destruct E as (cs & r4 & _ & E). apply ok_inj in E. destruct E as [E _]. injection E as <- <-.
  destruct (sim_codes_collected (Rat bytes e) _ SB _ _ (at_bit_Rat _ _ _ _ HB A2)) as (r3' & EL & R3).
  rewrite E1 in EL. destruct (lb_codes _ (skipn (off + 2) (bits_of_bytes bytes))) as [o t] eqn:EC. cbn [fst snd] in *.
  injection EL as <- ->. apply lb_codes_ok in EC. destruct EC as (hdr & EH & -> & HH).
  destruct (pspec_at_ok _ _ _ bytes e (off + 2) r2 (lt, dt) hdr (read_codes_spec _) (sim_read_codes _ _ _ SB) HB A2) as (r5 & E5 & A5).
  { now exists t. } { exact HH. }
  exists hdr, lt, dt, r2, r5. split; [reflexivity|]. split; [now exists t|]. split; [exact A2|]. split; [exact E5|]. split; [exact A5|].
  destruct (sim_read_codes _ _ _ (sim_si hdr) hdr _ (Rsi_new hdr)) as (it & ER & _). rewrite ER.
  assert (EK : read_codes (rbl (EofPanic "TODO: EOF")) hdr = (Ok (lt, dt), [])).
  { apply read_codes_spec. exists hdr. now rewrite app_nil_r. }
  now rewrite EK.
Qed.
