(** Lemmas: with machine arithmetic, in either build, writing does what the model says. *)
From Verif Require Import Base M_bit M_lib M_code_tree M_huffman M_circles M_parse M_serialise M_arith Clients_reach Clients_arith L_arith L_P_reach.
From Coq Require Import ZArith ZifyBool ZifyNat ZifyN.
Ltac Zify.zify_post_hook ::= Z.div_mod_to_equations.
Local Open Scope N_scope.
Local Open Scope model_scope.

(** ** The writer *)
Definition IW (w : bit_writer) : Prop := (bv_len (bw_current w) <= 7)%nat.

Lemma pop_len v b v' : bv_pop v = Ok (Some b, v') -> bv_len v' = (bv_len v - 1)%nat.
Proof.
  unfold bv_pop. destruct (Nat.eqb 0 (bv_len v)); [discriminate|]. destruct (bv_get v _); cbn [obind]; try discriminate.
  intro E. injection E as _ <-. reflexivity.
Qed.
Lemma pop_byte_loop_len poss : forall ret v x v', bv_pop_byte_loop poss ret v = Ok (x, v') ->
  bv_len v' = (bv_len v - List.length poss)%nat.
Proof.
  induction poss as [|p poss IH]; intros ret v x v' E; cbn [bv_pop_byte_loop] in E.
  - injection E as _ <-. cbn. lia.
  - destruct (bv_pop v) as [[[b|] v1]| | |] eqn:EP; cbn [obind] in E; try discriminate. apply pop_len in EP. apply IH in E. cbn [List.length]. lia.
Qed.

Section Writer.
  Context (bd : build).

  Lemma q_wlift {A} (f g : bitvec -> outcome (A * bitvec)) v : f v = g v -> forall i,
    bw_lift_current f (mkWriter i v) = bw_lift_current g (mkWriter i v).
  Proof. intros E i. unfold bw_lift_current. cbn [bw_current]. now rewrite E. Qed.

  Lemma q_winner bs : simq IW any (bw_inner_write_all bs) (bw_inner_write_all bs).
  Proof.
    intros [i v] HI. split; [reflexivity|]. unfold bw_inner_write_all, zoom. cbn [bw_inner bw_current].
    destruct (write_all bs i) as [[] i']; cbn [fst snd]; unfold IW, any in *; cbn [bw_current] in *; auto.
  Qed.

  Lemma q_wbit b : simq IW any (mc_write_bit bd b) (bw_write_bit b).
  Proof.
    intros [i v] HI. unfold IW in HI. cbn [bw_current] in HI. unfold mc_write_bit, bw_write_bit, bind, bw_lift_current. cbn [bw_current bw_inner].
    rewrite push_ok by width. destruct (bv_push v b) as [v1|e|m|] eqn:EP; cbn [obind]; [|split; [reflexivity|]; cbn; auto..].
    apply push_len in EP. cbn [bw_current]. destruct (Nat.leb_spec 8 (bv_len v1)).
    - destruct (Nat.eqb 8 (bv_len v1)); [|now split]. rewrite pop_byte_ok.
      destruct (bv_pop_byte v1) as [[o v2]|e|m|] eqn:EB; [|split; [reflexivity|]; cbn; auto..].
      + destruct o as [x|]; [|now split]. unfold bv_pop_byte in EB. destruct (Nat.ltb (bv_len v1) 8); [discriminate|].
        destruct (bv_pop_byte_loop (seq 0 8) 0 v1) as [[y v3]| | |] eqn:EL; cbn [obind] in EB; try discriminate. injection EB as <- <-. cbn [fst snd].
        apply pop_byte_loop_len in EL. cbn [List.length seq] in EL. apply (q_winner [y]). unfold IW. cbn [bw_current]. lia.
      + exfalso. unfold bv_pop_byte in EB. destruct (Nat.ltb (bv_len v1) 8); [discriminate|].
        assert (HN : forall poss ret v e, bv_pop_byte_loop poss ret v <> Err e).
        { induction poss as [|p poss IH]; intros rt u e'; cbn [bv_pop_byte_loop]; [discriminate|]. unfold bv_pop, bv_get, get_idx.
          destruct (Nat.eqb 0 _); [discriminate|]. destruct (Nat.ltb _ _); [|discriminate]. destruct (nth_error _ _); [|discriminate]. cbn [obind]. apply IH. }
        destruct (bv_pop_byte_loop (seq 0 8) 0 v1) eqn:EL; cbn [obind] in EB; try discriminate. eapply HN. exact EL.
    - split; [reflexivity|]. cbn [fst snd]. split; [|exact I]. unfold IW. cbn [bw_current]. lia.
  Qed.

  Lemma q_wval_loop n : forall k val, (k + n <= 16)%nat ->
    simq IW any (mc_write_bits_val_loop bd (seq k n) val) (bw_write_bits_val_loop (seq k n) val).
  Proof.
    induction n as [|n IH]; intros k val Hk; cbn [seq mc_write_bits_val_loop bw_write_bits_val_loop]; [now apply q_ret|].
    step. destruct (Nat.ltb_spec k 16); [|lia]. cbn [assert_].
    change (simq IW any (mc_write_bit bd (negb (N.land val (N.shiftl 1 (N.of_nat k)) =? 0)) ;;; mc_write_bits_val_loop bd (seq (S k) n) val)
      (bw_write_bit (negb (N.land val (N.shiftl 1 (N.of_nat k)) =? 0)) ;;; bw_write_bits_val_loop (seq (S k) n) val)).
    apply (q_bind IW any); [apply q_wbit|]. intros _ _. apply IH. lia.
  Qed.
  Lemma q_wval n val : n <= 16 -> simq IW any (mc_write_bits_val bd n val) (bw_write_bits_val n val).
  Proof. intro H. apply q_wval_loop. lia. Qed.

  Lemma q_walign fuel : simq IW any (mc_bw_align_loop bd fuel) (bw_align_loop fuel).
  Proof.
    induction fuel as [|fuel IH]; cbn [mc_bw_align_loop bw_align_loop]; [now apply q_lift|]. apply (q_bind IW any).
    - intros [i v] HI. split; [reflexivity|]. unfold bw_lift_current. cbn [bw_current]. destruct (bv_is_empty v); cbn [obind fst snd]; unfold any, IW in *; cbn [bw_current] in *; auto.
    - intros e _. destruct e; [now apply q_ret|]. apply (q_bind IW any); [apply q_wbit|]. intros _ _. exact IH.
  Qed.

  Definition IS (it : stack_iter) : Prop := N.of_nat (bv_len (si_inner it)) < 2 ^ 64.
  Lemma q_si : simq IS any (mc_si_next bd) si_next.
  Proof.
    intros [v pos] HI. unfold IS in HI. cbn [si_inner] in HI. unfold mc_si_next, si_next. cbn [si_inner si_pos].
    destruct (Nat.leb_spec (bv_len v) pos); [destruct (Nat.eqb pos _); [split; [reflexivity|]; cbn; auto|now split]|].
    rewrite get_ok. destruct (bv_get v pos); [|split; [reflexivity|]; cbn; auto..]. rewrite add_ok by lia.
    replace (N.to_nat (N.of_nat pos + 1)) with (S pos) by lia. split; [reflexivity|]. cbn. auto.
  Qed.
  Lemma q_si_bit : simq IS any (mc_si_read_bit bd) si_read_bit.
  Proof. apply (q_bind IS any); [apply q_si|]. intros [b|] _; [now apply q_ret|apply q_panic]. Qed.

  Lemma q_witer n : forall it, IS it -> simq IW any (mc_write_iter bd n it) (bw_write_iter n it).
  Proof.
    induction n as [|n IH]; intros it HI; cbn [mc_write_iter bw_write_iter]; [now apply q_lift|]. destruct (q_si it HI) as [-> H].
    destruct (si_next it) as [[[b|]| | |] it']; cbn [fst snd] in H.
    - apply (q_bind IW any); [apply q_wbit|]. intros _ _. apply IH, H.
    - now apply q_ret.
    - now apply q_lift.
    - apply q_panic.
    - now apply q_lift.
  Qed.
  Lemma q_wvec v : N.of_nat (bv_len v) < 2 ^ 64 -> simq IW any (mc_write_vec bd v) (bw_write_vec v).
  Proof. intro H. apply q_witer. exact H. Qed.

  Lemma q_wu16 v : simq IW any (mc_write_aligned_u16 bd v) (bw_write_aligned_u16 v).
  Proof. unfold mc_write_aligned_u16. step. apply q_winner. Qed.
  Lemma q_wprefixed data : simq IW any (mc_write_length_prefixed bd data) (bw_write_length_prefixed data).
  Proof.
    apply (q_bind IW any); [apply q_walign|]. intros _ _. apply q_ensure. intros _. apply (q_bind IW any); [apply q_wu16|]. intros _ _.
    apply (q_bind IW any); [apply q_wu16|]. intros _ _. apply q_winner.
  Qed.

  (** ** Trees *)
  Definition short (o : option bitvec) : Prop := match o with Some v => (bv_len v <= 1000)%nat | None => True end.
  Lemma upd_forall {A} (P : A -> Prop) l : forall i a, Forall P l -> P a -> Forall P (upd l i a).
  Proof. induction l; intros [|i] x HF Hx; cbn [upd]; inversion_clear HF; constructor; auto. Qed.
  Lemma set_forall {A} (P : A -> Prop) l i a l' : Forall P l -> P a -> set_idx l i a = Ok l' -> Forall P l'.
  Proof. unfold set_idx. destruct (Nat.ltb _ _); [|discriminate]. intros HF Ha E. injection E as <-. now apply upd_forall. Qed.
  Lemma get_forall {A} (P : A -> Prop) l i a : Forall P l -> get_idx l i = Ok a -> P a.
  Proof.
    unfold get_idx. intros HF. destruct (nth_error l i) eqn:E; [|discriminate]. intro H. injection H as <-.
    apply (proj1 (Forall_forall P l) HF). eapply nth_error_In; eauto.
  Qed.

  Lemma store_same n : forall into prefix, (bv_len prefix + node_height n <= 1000)%nat ->
    mc_store_code bd into prefix n = store_code into prefix n
    /\ (Forall short into -> forall l, store_code into prefix n = Ok l -> Forall short l).
  Proof.
    induction n as [sym|a IHa b IHb]; intros into prefix H; cbn [mc_store_code store_code node_height] in *.
    - split; [reflexivity|]. intros HF l. destruct (get_idx into (N.to_nat sym)) as [[v|]| | |]; cbn [obind]; try discriminate.
      apply set_forall; [exact HF|]. cbn. lia.
    - unfold plus_bit. rewrite !push_ok by width. destruct (bv_push prefix false) as [p0| | |] eqn:E0; cbn [obind]; [|now split..].
      apply push_len in E0. destruct (IHa into p0 ltac:(lia)) as [-> Ha]. destruct (store_code into p0 a) as [i1| | |] eqn:EA; cbn [obind]; [|now split..].
      destruct (bv_push prefix true) as [p1| | |] eqn:E1; cbn [obind]; [|now split..].
      apply push_len in E1. destruct (IHb i1 p1 ltac:(lia)) as [-> Hb]. split; [reflexivity|]. intros HF l E. apply Hb; [|exact E]. apply Ha; auto.
  Qed.

  Lemma invert_same t : made t -> mc_invert bd t = tree_invert t /\ (forall l, tree_invert t = Ok l -> Forall short l).
  Proof.
    intros [lens E]. apply tree_height_le in E. unfold tree_height in E. cbn [node_height] in E. unfold mc_invert, tree_invert, plus_bit.
    rewrite !push_ok by (cbn [bv_len bv_new]; width). destruct (bv_push bv_new false) as [p0| | |] eqn:E0; cbn [obind]; [|now split..].
    apply push_len in E0. cbn [bv_len bv_new] in E0. destruct (store_same (ct_left t) (repeat None 288) p0 ltac:(lia)) as [-> Ha].
    destruct (store_code (repeat None 288) p0 (ct_left t)) as [i1| | |] eqn:EA; cbn [obind]; [|now split..].
    destruct (bv_push bv_new true) as [p1| | |] eqn:E1; cbn [obind]; [|now split..]. apply push_len in E1. cbn [bv_len bv_new] in E1.
    destruct (store_same (ct_right t) i1 p1 ltac:(lia)) as [-> Hb]. split; [reflexivity|]. intros l EL. apply Hb; [|exact EL].
    apply Ha; [|reflexivity]. apply Forall_forall. intros x HX. apply repeat_spec in HX. now subst x.
  Qed.

  (** ** Lengths and distances *)
  Lemma run_code_same len : len < 65536 -> mc_encode_run_length bd len = encode_run_length len.
  Proof.
    intro H. unfold mc_encode_run_length, encode_run_length.
    destruct (N.leb_spec 3 len), (N.leb_spec len 10); cbn [andb]; try (fits; cbn [obind]; fits; f_equal; lia);
    destruct (N.leb_spec 11 len), (N.leb_spec len 18); cbn [andb]; try (fits; cbn [obind]; fits; reflexivity); try lia;
    destruct (N.leb_spec 19 len), (N.leb_spec len 34); cbn [andb]; try (fits; cbn [obind]; fits; reflexivity); try lia;
    destruct (N.leb_spec 35 len), (N.leb_spec len 66); cbn [andb]; try (fits; cbn [obind]; fits; reflexivity); try lia;
    destruct (N.leb_spec 67 len), (N.leb_spec len 130); cbn [andb]; try (fits; cbn [obind]; fits; reflexivity); try lia;
    destruct (N.leb_spec 131 len), (N.leb_spec len 257); cbn [andb]; try (fits; cbn [obind]; fits; reflexivity); try lia; reflexivity.
  Qed.
  Lemma run_extra_same len : mc_extra_run_length bd len = extra_run_length len
    /\ (forall bits val, extra_run_length len = Ok (Some (bits, val)) -> bits <= 5).
  Proof.
    unfold mc_extra_run_length, extra_run_length.
    destruct ((3 <=? len) && (len <=? 10) || (len =? 258)); [split; [reflexivity|discriminate]|].
    destruct ((11 <=? len) && (len <=? 18)) eqn:H1; [fits; split; [reflexivity|]; intros ? ? [= <- _]; lia|].
    destruct ((19 <=? len) && (len <=? 34)) eqn:H2; [fits; split; [reflexivity|]; intros ? ? [= <- _]; lia|].
    destruct ((35 <=? len) && (len <=? 66)) eqn:H3; [fits; split; [reflexivity|]; intros ? ? [= <- _]; lia|].
    destruct ((67 <=? len) && (len <=? 130)) eqn:H4; [fits; split; [reflexivity|]; intros ? ? [= <- _]; lia|].
    destruct ((131 <=? len) && (len <=? 257)) eqn:H5; [fits; split; [reflexivity|]; intros ? ? [= <- _]; lia|].
    split; [reflexivity|discriminate].
  Qed.

  (** A build that checks copes with any distance, the other one with those of DEFLATE. *)
  Definition dist_fits (d : N) : Prop := d < 65536 /\ (bd = Checked \/ 1 <= d <= 32768).

  Lemma dist_loop_same d n : forall fuel eb, (n <= fuel)%nat -> 15 <= N.of_nat n + eb -> 1 <= eb <= 14 -> 2 ^ (eb + 1) < d -> dist_fits d ->
    mc_distance_loop bd fuel d eb (2 * eb + 2) (2 ^ (eb + 1)) = encode_distance_loop n d eb (2 * eb + 2) (2 ^ (eb + 1))
    /\ (forall a c b, encode_distance_loop n d eb (2 * eb + 2) (2 ^ (eb + 1)) = Ok (a, c, b) ->
          1 <= a <= 13 /\ c = 2 * a + 2 /\ b = 2 ^ (a + 1) /\ b < d).
  Proof.
    induction n as [|n IH]; intros fuel eb Hf Hn He Hd HF; [lia|]. destruct fuel as [|fuel]; [lia|]. cbn [mc_distance_loop encode_distance_loop].
    assert (P : 2 ^ (eb + 1) * 2 = 2 ^ (eb + 1 + 1)) by (rewrite (N.pow_add_r 2 (eb + 1) 1); lia).
    destruct (N.eq_dec eb 14) as [->|Hne].
    - change (2 ^ (14 + 1)) with 32768 in *. change (65536 <=? 32768 * 2) with true. cbn [obind]. destruct HF as [H1 [->|H2]]; [|lia].
      change (mul Checked 16 32768 2) with (@Panic N "attempt to multiply with overflow"). cbn [obind]. split; [reflexivity|discriminate].
    - assert (HP : 2 ^ (eb + 1 + 1) <= 32768) by (change 32768 with (2 ^ 15); apply N.pow_le_mono_r; lia).
      rewrite mul_ok by (rewrite P; width). cbn [obind]. rewrite P. destruct (N.leb_spec 65536 (2 ^ (eb + 1 + 1))); [lia|].
      destruct (N.ltb_spec (2 ^ (eb + 1 + 1)) d).
      + rewrite !add_ok by width. cbn [obind]. replace (2 * eb + 2 + 2) with (2 * (eb + 1) + 2) by lia. apply IH; auto; lia.
      + split; [reflexivity|]. intros a c b E. injection E as <- <- <-. repeat split; lia.
  Qed.

  Lemma dist_same fuel d : (16 <= fuel)%nat -> dist_fits d ->
    mc_huff_distance bd fuel d = huff_encode_distance d
    /\ (forall c b v, huff_encode_distance d = Ok (Some (c, b, v)) -> b <= 13).
  Proof.
    intros Hf HF. unfold mc_huff_distance, huff_encode_distance. destruct (N.leb_spec d 4).
    - destruct (N.eqb_spec d 0) as [->|Hn].
      + destruct HF as [_ [->|H1]]; [|lia]. split; [reflexivity|discriminate].
      + replace (d mod 256) with d by lia. rewrite sub_ok by lia. cbn [obind]. split; [reflexivity|]. intros c b v [= <- <- <-]. lia.
    - destruct (dist_loop_same d 16 fuel 1 Hf ltac:(lia) ltac:(lia) ltac:(cbn; lia) HF) as [E H2].
      change (2 * 1 + 2) with 4 in *. change (2 ^ (1 + 1)) with 4 in *. rewrite E. clear E.
      destruct (encode_distance_loop 16 d 1 4 4) as [[[a c] b]| | |]; cbn [obind]; [|split; [reflexivity|discriminate]..].
      destruct (H2 a c b eq_refl) as (Ha & -> & Hb & Hd). 
      assert (P1 : 2 ^ (a + 1) = 2 * 2 ^ a) by (rewrite (N.pow_add_r 2 a 1); lia).
      assert (P2 : 2 ^ a <= 8192) by (change 8192 with (2 ^ 13); apply N.pow_le_mono_r; lia).
      assert (P3 : 2 <= 2 ^ a) by (change 2 with (2 ^ 1) at 1; apply N.pow_le_mono_r; lia).
      destruct HF as [HF _].
      rewrite (sub_ok bd 16 d b) by lia. cbn [obind]. rewrite sub_ok by lia. cbn [obind].
      destruct (N.eqb_spec (b / 2) 0); [lia|]. rewrite add_ok by width. cbn [obind].
      destruct (d <=? b + b / 2).
      + split; [reflexivity|]. intros ? ? ? [= <- <- <-]. lia.
      + rewrite add_ok by width. cbn [obind]. split; [reflexivity|]. intros ? ? ? [= <- <- <-]. lia.
  Qed.

  (** ** Blocks *)
  Definition code_writes (c : Code) : Prop :=
    match c with Literal _ => True | Reference r => r_run_minus_3 r < 256 /\ dist_fits (r_dist r) end.

  Lemma short_small v : (bv_len v <= 1000)%nat -> N.of_nat (bv_len v) < 2 ^ 64.
  Proof. intro H. width. Qed.

  Lemma q_get l i : Forall short l -> simq IW short (lift (get_idx l i)) (lift (get_idx l i)).
  Proof. intro H. apply q_lift. intros a. now apply get_forall. Qed.
  Lemma q_unwrap o : short o -> simq IW (fun v => (bv_len v <= 1000)%nat) (lift (unwrap o)) (lift (unwrap o)).
  Proof. intro H. apply q_lift. destruct o; [|discriminate]. intros v E. injection E as <-. exact H. Qed.

  Lemma q_wrun lt run : Forall short lt -> run < 65536 -> simq IW any (mc_encode_run bd lt run) (encode_run lt run).
  Proof.
    intros HL HR. unfold mc_encode_run, encode_run. rewrite run_code_same by exact HR. apply (q_bind IW any); [now apply q_lift|]. intros sym _.
    apply (q_bind IW short); [now apply q_get|]. intros o Ho. apply (q_bind IW _ _ _ _ _ _ (q_unwrap o Ho)). intros v Hv.
    apply (q_bind IW any); [apply q_wvec, short_small, Hv|]. intros _ _. destruct (run_extra_same run) as [-> HX].
    apply (q_bind IW (fun x => match x with Some (b, _) => b <= 5 | None => True end)).
    - apply q_lift. intros [[b x]|] E; [|exact I]. eapply HX. exact E.
    - intros [[b x]|] Hb; [apply q_wval; lia|now apply q_ret].
  Qed.

  Definition short_opt (dt : option (list (option bitvec))) : Prop := match dt with Some l => Forall short l | None => True end.
  Lemma q_wdist fuel dt d : (16 <= fuel)%nat -> short_opt dt -> dist_fits d ->
    simq IW any (mc_encode_distance bd fuel dt d) (encode_distance dt d).
  Proof.
    intros Hf HD HF. unfold mc_encode_distance, encode_distance. destruct (dist_same fuel d Hf HF) as [-> HX].
    apply (q_bind IW (fun x => match x with Some (_, b, _) => b <= 13 | None => True end)).
    - apply q_lift. intros [[[c b] x]|] E; [|exact I]. eapply HX. exact E.
    - intros [[[c b] x]|] Hb; [|now apply q_ret]. destruct dt as [l|]; [|apply q_fail]. cbn [short_opt] in HD.
      apply (q_bind IW short); [now apply q_get|]. intros o Ho. apply (q_bind IW _ _ _ _ _ _ (q_unwrap o Ho)). intros v Hv.
      apply (q_bind IW any); [apply q_wvec, short_small, Hv|]. intros _ _. destruct (0 <? b); [apply q_wval; lia|now apply q_ret].
  Qed.

  Lemma q_wcode fuel lt dt c : (16 <= fuel)%nat -> Forall short lt -> short_opt dt -> code_writes c ->
    simq IW any (mc_compressed_code bd fuel lt dt c) (compressed_code lt dt c).
  Proof.
    intros Hf HL HD HC. destruct c as [b|r]; cbn [mc_compressed_code compressed_code code_writes] in *.
    - apply (q_bind IW short); [now apply q_get|]. intros [v|] Ho; [apply q_wvec, short_small, Ho|apply q_fail].
    - destruct HC as [H1 H2]. unfold mc_run. step. change (r_run_minus_3 r + 3) with (r_run r).
      apply (q_bind IW any); [apply q_wrun; [exact HL|unfold r_run; lia]|]. intros _ _. now apply q_wdist.
  Qed.
  Lemma q_wcodes fuel lt dt codes : (16 <= fuel)%nat -> Forall short lt -> short_opt dt -> Forall code_writes codes ->
    simq IW any (mc_codes_loop bd fuel lt dt codes) (compressed_codes_loop lt dt codes).
  Proof.
    intros Hf HL HD. induction 1 as [|c codes HC _ IH]; cbn [mc_codes_loop compressed_codes_loop]; [now apply q_ret|].
    apply (q_bind IW any); [now apply q_wcode|]. intros _ _. exact IH.
  Qed.

  Lemma q_wall fuel lt dt codes : (16 <= fuel)%nat -> made lt -> match dt with Some t => made t | None => True end -> Forall code_writes codes ->
    simq IW any (mc_compressed_codes bd fuel lt dt codes) (compressed_codes lt dt codes).
  Proof.
    intros Hf HL HD HC. unfold mc_compressed_codes, compressed_codes. destruct (invert_same lt HL) as [-> HS].
    apply (q_bind IW (Forall short)); [apply q_lift; exact HS|]. intros l Hl.
    apply (q_bind IW short_opt).
    - destruct dt as [t|]; cbn [mc_invert_opt invert_opt]; [|now apply q_lift; intros ? [= <-]].
      destruct (invert_same t HD) as [-> HS2]. apply q_lift. intros a. destruct (tree_invert t) as [x| | |]; cbn [obind]; try discriminate.
      intros [= <-]. cbn [short_opt]. now apply HS2.
    - intros d Hd. apply q_assert. intros _. apply (q_bind IW any); [now apply q_wcodes|]. intros _ _.
      apply (q_bind IW short); [now apply q_get|]. intros o Ho. apply (q_bind IW _ _ _ _ _ _ (q_unwrap o Ho)). intros v Hv. apply q_wvec, short_small, Hv.
  Qed.

  Lemma expect_made m lens t : expect m (tree_new lens) = Ok t -> made t.
  Proof. unfold expect. destruct (tree_new lens) eqn:E; try discriminate. intros [= <-]. eexists. exact E. Qed.

  Definition block_writes (b : Block) : Prop :=
    match b with
    | Uncompressed _ => True
    | FixedHuffman codes => Forall code_writes codes
    | DynamicHuffman trees codes => N.of_nat (bv_len trees) < 2 ^ 64 /\ Forall code_writes codes
    end.

  Lemma q_wblock fuel b : (16 <= fuel)%nat -> block_writes b -> simq IW any (mc_compressed_block bd fuel b) (compressed_block b).
  Proof.
    intros Hf HB. destruct b as [data|codes|trees codes]; cbn [mc_compressed_block compressed_block block_writes] in *;
      (apply (q_bind IW any); [apply q_wval; lia|]; intros _ _).
    - apply q_wprefixed.
    - apply (q_bind IW made); [apply q_lift; intro; apply expect_made|]. intros lt Hlt.
      apply (q_bind IW made); [apply q_lift; intro; apply expect_made|]. intros dt Hdt. now apply q_wall.
    - destruct HB as [HT HC]. apply (q_bind IW any); [now apply q_wvec|]. intros _ _.
      destruct (q_read_codes bd IS _ _ q_si_bit (bv_iter trees) HT) as [-> HM].
      apply (q_bind IW both_made).
      + apply q_lift. intros p E. rewrite E in HM. apply HM.
      + intros [lt dt] [H1 H2]. now apply q_wall.
  Qed.

  Lemma q_wstream fuel blocks : (16 <= fuel)%nat -> Forall block_writes blocks ->
    simq IW any (mc_compress_blocks bd fuel blocks) (compress_blocks blocks).
  Proof.
    intros Hf. induction 1 as [|b blocks HB _ IH]; cbn [mc_compress_blocks compress_blocks]; [apply q_walign|].
    apply (q_bind IW any); [apply q_wbit|]. intros _ _. apply (q_bind IW any); [now apply q_wblock|]. intros _ _. exact IH.
  Qed.
End Writer.
