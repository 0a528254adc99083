(** Proofs of C93: the text of the tracing example. *)
From Verif Require Import Base M_bit M_lib M_code_tree M_huffman M_circles M_gzip M_parse M_serialise M_all_refs M_technique M_trace M_debug M_dump M_text M_example M_example_text
  Spec Clients Clients_text Clients_debug L_bits L_ring L_header L_parse L_P_parse L_P_gzip L_search L_tech L_P_tech L_P_debug L_P_e2e L_P_circ L_P_search L_P_trace L_P_tracing L_restore L_P_tracing2 L_P_text.
From Coq Require Hexadecimal HexadecimalN.
From Coq Require Import ZArith ZifyBool ZifyNat ZifyN.
Ltac Zify.zify_post_hook ::= Z.div_mod_to_equations.
Local Open Scope N_scope.
Local Open Scope model_scope.

(** ** Characters of a string *)
Lemma cons_inj {A} (a b : A) x y : a :: x = b :: y -> a = b /\ x = y.
Proof. intros [= -> ->]. auto. Qed.
Ltac cons_eqs := repeat match goal with H : _ :: _ = _ :: _ |- _ => apply cons_inj in H; let X := fresh "HE" in destruct H as [X H] end.
Lemma encode_inj a b x y : a < 1114112 -> b < 1114112 -> encode_utf8 a ++ x = encode_utf8 b ++ y -> a = b /\ x = y.
Proof.
  intros HA HB E. unfold encode_utf8 in E.
  assert (D : forall n, exists q1 q2 q3 r1 r2 r3, n = q1 * 64 + r1 /\ q1 = q2 * 64 + r2 /\ q2 = q3 * 64 + r3 /\ r1 < 64 /\ r2 < 64 /\ r3 < 64
     /\ n / 64 = q1 /\ n / 4096 = q2 /\ n / 262144 = q3 /\ n mod 64 = r1 /\ (n / 64) mod 64 = r2 /\ (n / 4096) mod 64 = r3).
  { intro n. exists (n / 64), (n / 64 / 64), (n / 64 / 64 / 64), (n mod 64), ((n / 64) mod 64), ((n / 64 / 64) mod 64).
    assert (M := fun k => N.div_mod k 64 ltac:(discriminate)). assert (L := fun k => N.mod_lt k 64 ltac:(discriminate)).
    rewrite !N.div_div by discriminate. change (64 * 64) with 4096. change (4096 * 64) with 262144. repeat split; try apply L; try (rewrite (M n) at 1; lia). }
  destruct (D a) as (a1 & a2 & a3 & ra1 & ra2 & ra3 & A1 & A2 & A3 & A4 & A5 & A6 & aE1 & aE2 & aE3 & aE4 & aE5 & aE6).
  destruct (D b) as (b1 & b2 & b3 & rb1 & rb2 & rb3 & B1 & B2 & B3 & B4 & B5 & B6 & bE1 & bE2 & bE3 & bE4 & bE5 & bE6). clear D.
  rewrite aE4, aE5, aE6, aE1, aE2, aE3, bE4, bE5, bE6, bE1, bE2, bE3 in E.
  clear aE1 aE2 aE3 aE4 aE5 aE6 bE1 bE2 bE3 bE4 bE5 bE6.
  destruct (N.ltb_spec a 128), (N.ltb_spec b 128); try destruct (N.ltb_spec a 2048); try destruct (N.ltb_spec a 65536); try destruct (N.ltb_spec b 2048); try destruct (N.ltb_spec b 65536);
  cbn [app] in E; cons_eqs; try (exfalso; lia); (split; [lia|assumption]).
Qed.

Definition hex_char (c : N) : Prop := 48 <= c <= 57 \/ 97 <= c <= 102.
Definition no_hex (x : list N) : Prop := match x with [] => True | c :: _ => ~ hex_char c end.
Lemma hex_digits_inj u : forall v x y, no_hex x -> no_hex y -> hex_digits u ++ x = hex_digits v ++ y -> u = v /\ x = y.
Proof.
  assert (ND : forall c l, hex_char c -> no_hex (c :: l) -> False) by (intros c l H1 H2; exact (H2 H1)).
  induction u; intros v x y HX HY E; destruct v; cbn [hex_digits app] in E; try discriminate E; try (split; [reflexivity|exact E]);
    try (subst x; apply ND in HX; [contradiction|unfold hex_char; lia]); try (subst y; apply ND in HY; [contradiction|unfold hex_char; lia]);
    injection E as E; destruct (IHu _ _ _ HX HY E) as [-> ->]; auto.
Qed.
Lemma hexadecimal_inj n m x y : no_hex x -> no_hex y -> hexadecimal n ++ x = hexadecimal m ++ y -> n = m /\ x = y.
Proof. intros HX HY E. destruct (hex_digits_inj _ _ _ _ HX HY E) as [H ->]. split; [now apply HexadecimalN.Unsigned.to_uint_inj|reflexivity]. Qed.

Inductive esc_view (c : N) : list N -> Prop :=
| ev_short k : In (c, k) [(0, 48); (9, 116); (10, 110); (13, 114); (34, 34); (92, 92)] -> esc_view c [92; k]
| ev_plain : c <> 34 -> c <> 92 -> esc_view c (encode_utf8 c)
| ev_hex : esc_view c ([92; 117; 123] ++ hexadecimal c ++ [125]).

Lemma string_char_view plain c : esc_view c (string_char plain c).
Proof.
  unfold string_char.
  destruct (N.eqb_spec c 0) as [->|]; [apply (ev_short _ 48); cbn; tauto|].
  destruct (N.eqb_spec c 9) as [->|]; [apply (ev_short _ 116); cbn; tauto|].
  destruct (N.eqb_spec c 10) as [->|]; [apply (ev_short _ 110); cbn; tauto|].
  destruct (N.eqb_spec c 13) as [->|]; [apply (ev_short _ 114); cbn; tauto|].
  destruct (N.eqb_spec c 34) as [->|]; [apply (ev_short _ 34); cbn; tauto|].
  destruct (N.eqb_spec c 92) as [->|]; [apply (ev_short _ 92); cbn; tauto|].
  destruct (if c <? 128 then _ else _); [now apply ev_plain|apply ev_hex].
Qed.

Lemma encode_hd c k : c < 1114112 -> c <> k -> k < 128 -> forall x, hd 0 (encode_utf8 c ++ x) <> k.
Proof.
  intros H HN HK x. unfold encode_utf8. destruct (N.ltb_spec c 128); [|destruct (N.ltb_spec c 2048); [|destruct (N.ltb_spec c 65536)]]; cbn [app hd]; lia.
Qed.

Lemma esc_view_inj a b ta tb x y : a < 1114112 -> b < 1114112 -> esc_view a ta -> esc_view b tb -> ta ++ x = tb ++ y -> a = b /\ x = y.
Proof.
  intros HA HB VA VB E. destruct VA as [k HK|A1 A2|], VB as [k' HK'|B1 B2|].
  - cbn [app] in E. injection E as <- E. split; [|exact E]. cbn in HK, HK'. intuition congruence.
  - exfalso. apply (encode_hd b 92 HB B2 eq_refl y). rewrite <- E. reflexivity.
  - exfalso. rewrite <- app_assoc in E. cbn [app] in E. injection E as -> E. cbn in HK. intuition congruence.
  - exfalso. apply (encode_hd a 92 HA A2 eq_refl x). rewrite E. reflexivity.
  - now apply encode_inj.
  - exfalso. apply (encode_hd a 92 HA A2 eq_refl x). rewrite E. reflexivity.
  - exfalso. rewrite <- app_assoc in E. cbn [app] in E. injection E as <- E. cbn in HK'. intuition congruence.
  - exfalso. apply (encode_hd b 92 HB B2 eq_refl y). rewrite <- E. reflexivity.
  - rewrite <- !app_assoc in E. apply app_inv_head in E. apply hexadecimal_inj in E; [|cbn; unfold hex_char; lia..]. destruct E as [-> E]. apply app_inv_head in E. auto.
Qed.

Lemma esc_view_hd c t : c < 1114112 -> esc_view c t -> forall x, hd 0 (t ++ x) <> 34.
Proof.
  intros H V x. destruct V as [k HK|A1 A2|]; [cbn; discriminate|now apply encode_hd|cbn; discriminate].
Qed.

(** Lists with an end marker. *)
Lemma concat_end {A} (P : A -> Prop) f stop : unamb P f -> (forall a, P a -> forall x, hd 0 (f a ++ x) <> stop) ->
  forall a b x y, Forall P a -> Forall P b -> List.concat (map f a) ++ stop :: x = List.concat (map f b) ++ stop :: y -> a = b /\ x = y.
Proof.
  intros U NE. induction a as [|h a IH]; intros [|h' b] x y PA PB E; cbn [map List.concat app] in E; rewrite <- ?app_assoc in E.
  - injection E as E. auto.
  - exfalso. inversion PB; subst. apply (NE h' H1 (List.concat (map f b) ++ stop :: y)). rewrite <- E. reflexivity.
  - exfalso. inversion PA; subst. apply (NE h H1 (List.concat (map f a) ++ stop :: x)). rewrite E. reflexivity.
  - inversion PA; inversion PB; subst. destruct (U _ _ _ _ H1 H5 E) as [-> E2]. destruct (IH _ _ _ H2 H6 E2) as [-> ->]. auto.
Qed.

Lemma string_debug_inj plain : unamb (Forall (fun c => c < 1114112)) (string_debug plain).
Proof.
  intros a b x y PA PB E. unfold string_debug in E. rewrite <- !app_assoc in E. apply app_inv_head in E. cbn [app] in E.
  refine (concat_end (fun c => c < 1114112) (string_char plain) 34 _ _ a b x y PA PB E).
  - intros c d u v HC HD EE. exact (esc_view_inj _ _ _ _ _ _ HC HD (string_char_view plain c) (string_char_view plain d) EE).
  - intros c HC u. exact (esc_view_hd _ _ HC (string_char_view plain c) u).
Qed.

(** ** UTF-8 *)
Definition good (p : list N) : bool :=
  match p with
  | [] => true
  | b0 :: l =>
      if b0 <? 128 then match l with [] => true | _ => false end
      else if in_range 194 223 b0 then match l with [] => true | [b1] => in_range 128 191 b1 | _ => false end
      else if in_range 224 239 b0 then
        match l with [] => true | b1 :: l => in_range (if b0 =? 224 then 160 else 128) (if b0 =? 237 then 159 else 191) b1
          && match l with [] => true | [b2] => in_range 128 191 b2 | _ => false end end
      else if in_range 240 244 b0 then
        match l with [] => true | b1 :: l => in_range (if b0 =? 240 then 144 else 128) (if b0 =? 244 then 143 else 191) b1
          && match l with [] => true | b2 :: l => in_range 128 191 b2 && match l with [] => true | [b3] => in_range 128 191 b3 | _ => false end end end
      else false
  end.

Ltac ifs := repeat match goal with |- context [if ?c then _ else _] => let E := fresh "C" in destruct c eqn:E end.

Lemma starts_good p : starts p -> good p = true.
Proof.
  intros (c & more & U). remember (p ++ more) as w eqn:EW. destruct U as [c H|a b H1 H2 H3|a b c H1 H2 H3 H4 H5|a b c d H1 H2 H3 H4 H5];
  destruct p as [|b0 [|b1 [|b2 [|b3 [|b4 p]]]]]; try reflexivity; cbn [app] in EW; cons_eqs; try discriminate EW; subst; cbn [good]; ifs; unfold in_range in *; try reflexivity; lia.
Qed.

Lemma U2 b0 b1 : in_range 194 223 b0 = true -> in_range 128 191 b1 = true -> utf8 ((b0 - 192) * 64 + (b1 - 128)) [b0; b1].
Proof.
  unfold in_range. intros H1 H2. replace [b0; b1] with [192 + (b0 - 192); 128 + (b1 - 128)] by (f_equal; [lia|f_equal; lia]). apply utf8_2; lia.
Qed.
Lemma U3 b0 b1 b2 : in_range 224 239 b0 = true -> in_range (if b0 =? 224 then 160 else 128) (if b0 =? 237 then 159 else 191) b1 = true -> in_range 128 191 b2 = true ->
  utf8 ((b0 - 224) * 4096 + (b1 - 128) * 64 + (b2 - 128)) [b0; b1; b2].
Proof.
  unfold in_range. intros H1 H2 H3.
  assert (HB : 128 <= b1 <= 191 /\ (b0 = 224 -> 160 <= b1) /\ (b0 = 237 -> b1 <= 159)) by (destruct (N.eqb_spec b0 224), (N.eqb_spec b0 237); lia). clear H2.
  replace [b0; b1; b2] with [224 + (b0 - 224); 128 + (b1 - 128); 128 + (b2 - 128)] by (f_equal; [lia|f_equal; [lia|f_equal; lia]]). apply utf8_3; lia.
Qed.
Lemma U4 b0 b1 b2 b3 : in_range 240 244 b0 = true -> in_range (if b0 =? 240 then 144 else 128) (if b0 =? 244 then 143 else 191) b1 = true -> in_range 128 191 b2 = true ->
  in_range 128 191 b3 = true -> utf8 ((b0 - 240) * 262144 + (b1 - 128) * 4096 + (b2 - 128) * 64 + (b3 - 128)) [b0; b1; b2; b3].
Proof.
  unfold in_range. intros H1 H2 H3 H4.
  assert (HB : 128 <= b1 <= 191 /\ (b0 = 240 -> 144 <= b1) /\ (b0 = 244 -> b1 <= 143)) by (destruct (N.eqb_spec b0 240), (N.eqb_spec b0 244); lia). clear H2.
  replace [b0; b1; b2; b3] with [240 + (b0 - 240); 128 + (b1 - 128); 128 + (b2 - 128); 128 + (b3 - 128)] by (f_equal; [lia|f_equal; [lia|f_equal; [lia|f_equal; lia]]]). apply utf8_4; lia.
Qed.

Lemma starts_app p q : starts (p ++ q) -> starts p.
Proof. intros (c & more & U). exists c, (q ++ more). now rewrite app_assoc. Qed.
Lemma utf8_starts c w : utf8 c w -> starts w.
Proof. intro U. exists c, []. now rewrite app_nil_r. Qed.
Lemma starts_more p q c : utf8 c (p ++ q) -> starts p.
Proof. intro U. now exists c, q. Qed.

(** A character's bytes are complete: nothing longer starts a character. *)
Lemma utf8_len c w : utf8 c w -> match w with
  | b0 :: l => List.length l = (if b0 <? 128 then O else if b0 <? 224 then 1%nat else if b0 <? 240 then 2%nat else 3%nat) | [] => False end.
Proof. inversion 1; subst; cbn [List.length]; ifs; lia. Qed.
Lemma utf8_inj c w : utf8 c w -> forall d v x y, utf8 d v -> w ++ x = v ++ y -> c = d /\ w = v /\ x = y.
Proof.
  intros U d v x y V E. assert (L1 := utf8_len _ _ U). assert (L2 := utf8_len _ _ V).
  assert (w = v /\ x = y) as [-> ->].
  { destruct w as [|b w], v as [|b' v]; try contradiction. cbn [app] in E. injection E as <- E. rewrite <- L2 in L1. clear - E L1.
    revert v L1 E. induction w as [|h w IH]; intros [|h' v] L E; try discriminate L; [auto|]. cbn [app] in E. injection E as <- E. destruct (IH v ltac:(now injection L) E) as [[= ->] ->]. auto. }
  split; [|auto]. clear - U V. remember v as u eqn:EU in U. destruct U, V; cons_eqs; try discriminate EU; lia.
Qed.

Lemma good_starts p : good p = true -> starts p.
Proof.
  assert (S0 : starts [0]) by (exists 0, []; cbn [app]; now constructor).
  destruct p as [|b0 p]; [intros _; exact (starts_app [] [0] S0)|]. cbn [good]. destruct (N.ltb_spec b0 128) as [C0|C0].
  { destruct p; [|discriminate]. intros _. exists b0, []. cbn [app]. now constructor. }
  destruct (in_range 194 223 b0) eqn:C1.
  { destruct p as [|b1 [|b2 p]]; intro G; try discriminate G.
    - eexists _, [128]. now apply U2.
    - eexists _, []. now apply U2. }
  destruct (in_range 224 239 b0) eqn:C2.
  { destruct p as [|b1 p]; intro G.
    - eexists _, [if b0 =? 224 then 160 else 128; 128]. apply U3; [exact C2| |reflexivity]. destruct (N.eqb_spec b0 224) as [->|]; [reflexivity|]. destruct (b0 =? 237); reflexivity.
    - apply andb_prop in G. destruct G as [G1 G]. destruct p as [|b2 [|b3 p]]; try discriminate G.
      + eexists _, [128]. now apply U3.
      + eexists _, []. now apply U3. }
  destruct (in_range 240 244 b0) eqn:C3; [|discriminate].
  destruct p as [|b1 p]; intro G.
  - eexists _, [if b0 =? 240 then 144 else 128; 128; 128]. apply U4; [exact C3| |reflexivity..]. destruct (N.eqb_spec b0 240) as [->|]; [reflexivity|]. destruct (b0 =? 244); reflexivity.
  - apply andb_prop in G. destruct G as [G1 G]. destruct p as [|b2 p].
    + eexists _, [128; 128]. now apply U4.
    + apply andb_prop in G. destruct G as [G2 G]. destruct p as [|b3 [|b4 p]]; try discriminate G.
      * eexists _, [128]. now apply U4.
      * eexists _, []. now apply U4.
Qed.

Lemma starts_iff p : starts p <-> good p = true.
Proof. split; [apply starts_good|apply good_starts]. Qed.

(** No character starts the bytes [p ++ rest]: [p] is no character and nothing longer starts one. *)
Lemma no_char p rest : (forall c, ~ utf8 c p) -> (forall w c, utf8 c w -> (List.length w < List.length p)%nat -> forall more, p <> w ++ more) ->
  (forall b more, rest = b :: more -> ~ starts (p ++ [b])) ->
  forall c w more, utf8 c w -> p ++ rest <> w ++ more.
Proof.
  intros NP NS NL c w more U E.
  assert (X : (exists q, w = p ++ q) \/ exists q, q <> [] /\ p = w ++ q).
  { clear - E. revert w E. induction p as [|h p IH]; intros [|h' w] E; cbn [app] in E; [left; now exists []|left; now eexists|right; eexists; split; [|reflexivity]; discriminate|].
    injection E as <- E. destruct (IH w E) as [(q & ->)|(q & Q & ->)]; [left|right]; exists q; auto. }
  destruct X as [([|b q] & ->)|(q & Q & ->)].
  - rewrite app_nil_r in U. now apply NP in U.
  - rewrite <- app_assoc in E. apply app_inv_head in E. cbn [app] in E. apply (NL _ _ E). exists c, q. now rewrite <- app_assoc.
  - refine (NS w c U _ q eq_refl). rewrite app_length. destruct q; [congruence|cbn; lia].
Qed.

Lemma bad p rest cs : p <> [] -> good p = true \/ List.length p = 1%nat ->
  (match rest with [] => True | b :: _ => good (p ++ [b]) = false end) ->
  (match p with b0 :: l => 128 <= b0 /\ (good p = false \/ lt (List.length l) (if b0 <? 224 then 1%nat else if b0 <? 240 then 2%nat else 3%nat)) | [] => False end) ->
  shown rest cs -> shown (p ++ rest) (65533 :: cs).
Proof.
  intros HN HS HL HC IH.
  assert (NL : forall b more, rest = b :: more -> ~ starts (p ++ [b])) by (intros b more -> S; apply starts_good in S; congruence).
  apply shown_bad; [exact HN|now destruct HS as [H|H]; [left; apply good_starts|right]|exact NL| |exact IH].
  destruct p as [|b0 l]; [congruence|]. destruct HC as [H0 HC].
  apply no_char; [| |exact NL].
  - intros c U. destruct HC as [G|HC]; [apply utf8_starts, starts_good in U; congruence|]. apply utf8_len in U. destruct (N.ltb_spec b0 128); [lia|]. lia.
  - intros w c U L more E. destruct w as [|w0 w]; [now apply utf8_len in U|]. cbn [app] in E. apply cons_inj in E. destruct E as [<- ->].
    destruct HC as [G|HC].
    + destruct HS as [HS|HS]; [congruence|]. cbn [List.length] in HS, L. lia.
    + apply utf8_len in U. rewrite app_length in HC. destruct (N.ltb_spec b0 128); [lia|]. lia.
Qed.

Lemma in_range_iff a b x : in_range a b x = true <-> a <= x <= b.
Proof. unfold in_range. lia. Qed.

Lemma shown_lossy n : forall bytes, (List.length bytes <= n)%nat -> shown bytes (from_utf8_lossy bytes).
Proof.
  induction n as [|n IH]; intros [|b0 l1] HL; try (constructor; fail); cbn [List.length] in HL; [lia|].
  cbn [from_utf8_lossy]. destruct (N.ltb_spec b0 128) as [C0|C0].
  { change (b0 :: l1) with ([b0] ++ l1). constructor; [now constructor|apply IH; lia]. }
  destruct (in_range 194 223 b0) eqn:C1.
  { destruct l1 as [|b1 l2].
    - change [b0] with ([b0] ++ []). apply bad; [discriminate|right; reflexivity|exact I| |constructor]. split; [lia|]. right. apply in_range_iff in C1. cbn [List.length].
      replace (b0 <? 224) with true by lia. lia.
    - destruct (in_range 128 191 b1) eqn:C2.
      + change (b0 :: b1 :: l2) with ([b0; b1] ++ l2). constructor; [now apply U2|apply IH; cbn [List.length] in HL; lia].
      + change (b0 :: b1 :: l2) with ([b0] ++ b1 :: l2). apply bad; [discriminate|right; reflexivity| | |apply IH; lia].
        * cbn [app good]. replace (b0 <? 128) with false by lia. now rewrite C1.
        * split; [lia|]. right. apply in_range_iff in C1. cbn [List.length]. replace (b0 <? 224) with true by lia. lia. }
  destruct (in_range 224 239 b0) eqn:C2.
  { assert (R := C2). apply in_range_iff in R. destruct l1 as [|b1 l2].
    - change [b0] with ([b0] ++ []). apply bad; [discriminate|right; reflexivity|exact I| |constructor]. split; [lia|]. right. cbn [List.length].
      replace (b0 <? 224) with false by lia. replace (b0 <? 240) with true by lia. lia.
    - destruct (in_range (if b0 =? 224 then 160 else 128) (if b0 =? 237 then 159 else 191) b1) eqn:C3.
      2: { change (b0 :: b1 :: l2) with ([b0] ++ b1 :: l2). apply bad; [discriminate|right; reflexivity| | |apply IH; lia].
        * cbn [app good]. replace (b0 <? 128) with false by lia. now rewrite C1, C2, C3.
        * split; [lia|]. right. cbn [List.length]. replace (b0 <? 224) with false by lia. replace (b0 <? 240) with true by lia. lia. }
      assert (G : good [b0; b1] = true) by (cbn [good]; replace (b0 <? 128) with false by lia; now rewrite C1, C2, C3).
      destruct l2 as [|b2 l3].
      + change [b0; b1] with ([b0; b1] ++ []). apply bad; [discriminate|now left|exact I| |constructor]. split; [lia|]. right. cbn [List.length].
        replace (b0 <? 224) with false by lia. replace (b0 <? 240) with true by lia. lia.
      + destruct (in_range 128 191 b2) eqn:C4.
        * change (b0 :: b1 :: b2 :: l3) with ([b0; b1; b2] ++ l3). constructor; [now apply U3|apply IH; cbn [List.length] in HL; lia].
        * change (b0 :: b1 :: b2 :: l3) with ([b0; b1] ++ b2 :: l3). apply bad; [discriminate|now left| | |apply IH; cbn [List.length] in *; lia].
          -- cbn [app good]. replace (b0 <? 128) with false by lia. now rewrite C1, C2, C3, C4.
          -- split; [lia|]. right. cbn [List.length]. replace (b0 <? 224) with false by lia. replace (b0 <? 240) with true by lia. lia. }
  destruct (in_range 240 244 b0) eqn:C3.
  { assert (R := C3). apply in_range_iff in R. assert (K1 : (b0 <? 128) = false) by lia. assert (K2 : (b0 <? 224) = false) by lia. assert (K3 : (b0 <? 240) = false) by lia.
    destruct l1 as [|b1 l2].
    - change [b0] with ([b0] ++ []). apply bad; [discriminate|right; reflexivity|exact I| |constructor]. split; [lia|]. right. cbn [List.length]. rewrite K2, K3. lia.
    - destruct (in_range (if b0 =? 240 then 144 else 128) (if b0 =? 244 then 143 else 191) b1) eqn:C4.
      2: { change (b0 :: b1 :: l2) with ([b0] ++ b1 :: l2). apply bad; [discriminate|right; reflexivity| | |apply IH; lia].
        * cbn [app good]. now rewrite K1, C1, C2, C3, C4.
        * split; [lia|]. right. cbn [List.length]. rewrite K2, K3. lia. }
      assert (G : good [b0; b1] = true) by (cbn [good]; now rewrite K1, C1, C2, C3, C4).
      destruct l2 as [|b2 l3].
      + change [b0; b1] with ([b0; b1] ++ []). apply bad; [discriminate|now left|exact I| |constructor]. split; [lia|]. right. cbn [List.length]. rewrite K2, K3. lia.
      + destruct (in_range 128 191 b2) eqn:C5.
        2: { change (b0 :: b1 :: b2 :: l3) with ([b0; b1] ++ b2 :: l3). apply bad; [discriminate|now left| | |apply IH; cbn [List.length] in *; lia].
          -- cbn [app good]. now rewrite K1, C1, C2, C3, C4, C5.
          -- split; [lia|]. right. cbn [List.length]. rewrite K2, K3. lia. }
        assert (G2 : good [b0; b1; b2] = true) by (cbn [good]; now rewrite K1, C1, C2, C3, C4, C5).
        destruct l3 as [|b3 l4].
        * change [b0; b1; b2] with ([b0; b1; b2] ++ []). apply bad; [discriminate|now left|exact I| |constructor]. split; [lia|]. right. cbn [List.length]. rewrite K2, K3. lia.
        * destruct (in_range 128 191 b3) eqn:C6.
          -- change (b0 :: b1 :: b2 :: b3 :: l4) with ([b0; b1; b2; b3] ++ l4). constructor; [now apply U4|apply IH; cbn [List.length] in HL; lia].
          -- change (b0 :: b1 :: b2 :: b3 :: l4) with ([b0; b1; b2] ++ b3 :: l4). apply bad; [discriminate|now left| | |apply IH; cbn [List.length] in *; lia].
             ++ cbn [app good]. now rewrite K1, C1, C2, C3, C4, C5, C6.
             ++ split; [lia|]. right. cbn [List.length]. rewrite K2, K3. lia. }
  change (b0 :: l1) with ([b0] ++ l1). apply bad; [discriminate|right; reflexivity| | |apply IH; lia].
  - destruct l1 as [|b1 l1]; [exact I|]. cbn [app good]. replace (b0 <? 128) with false by lia. now rewrite C1, C2, C3.
  - split; [lia|]. left. cbn [good]. replace (b0 <? 128) with false by lia. now rewrite C1, C2, C3.
Qed.

Lemma starts_nonempty_longest (p q p' q' : list N) : p ++ q = p' ++ q' -> (List.length p < List.length p')%nat -> exists b more mid, q = b :: more /\ p' = (p ++ [b]) ++ mid.
Proof.
  revert p'. induction p as [|h p IH]; intros [|h' p'] E L; cbn [List.length app] in *; try lia.
  - subst q. exists h', (p' ++ q'), p'. auto.
  - apply cons_inj in E. destruct E as [<- E]. destruct (IH p' E ltac:(lia)) as (b & more & mid & -> & ->). exists b, more, mid. auto.
Qed.

Lemma part_unique part rest part' rest' : part <> [] -> part' <> [] -> starts part \/ List.length part = 1%nat -> starts part' \/ List.length part' = 1%nat ->
  (forall b more, rest = b :: more -> ~ starts (part ++ [b])) -> (forall b more, rest' = b :: more -> ~ starts (part' ++ [b])) ->
  part ++ rest = part' ++ rest' -> part = part' /\ rest = rest'.
Proof.
  intros N1 N2 S1 S2 L1 L2 E. destruct (Nat.lt_trichotomy (List.length part) (List.length part')) as [H|[H|H]].
  - exfalso. destruct (starts_nonempty_longest _ _ _ _ E H) as (b & more & mid & -> & ->). apply (L1 _ _ eq_refl). destruct S2 as [S2|S2]; [now apply starts_app in S2|].
    rewrite !app_length in S2. cbn [List.length] in S2. destruct part; [congruence|cbn in S2; lia].
  - clear - E H. revert part' H E. induction part as [|h p IH]; intros [|h' p'] H E; try discriminate H; [auto|]. cbn [app] in E. apply cons_inj in E. destruct E as [<- E].
    destruct (IH p' ltac:(now injection H) E) as [-> ->]. auto.
  - exfalso. destruct (starts_nonempty_longest _ _ _ _ (eq_sym E) H) as (b & more & mid & -> & ->). apply (L2 _ _ eq_refl). destruct S1 as [S1|S1]; [now apply starts_app in S1|].
    rewrite !app_length in S1. cbn [List.length] in S1. destruct part'; [congruence|cbn in S1; lia].
Qed.

Lemma shown_unique bytes cs : shown bytes cs -> forall ds, shown bytes ds -> cs = ds.
Proof.
  induction 1 as [|c w rest cs U _ IH|part rest cs NE ST LO NC _ IH]; intros ds S.
  - inversion S; subst; [reflexivity|..]; exfalso.
    + destruct w as [|? ?]; [now apply utf8_len in H0|discriminate].
    + destruct part; [congruence|discriminate].
  - remember (w ++ rest) as bytes eqn:EB. destruct S as [|d v rest' ds V S|part rest' ds NE ST LO NC S].
    + destruct w as [|? ?]; [now apply utf8_len in U|discriminate EB].
    + destruct (utf8_inj _ _ V _ _ _ _ U EB) as (-> & -> & ->). f_equal. now apply IH.
    + exfalso. exact (NC _ _ _ U EB).
  - remember (part ++ rest) as bytes eqn:EB. destruct S as [|d v rest' ds V S|part' rest' ds NE' ST' LO' NC' S].
    + destruct part; [congruence|discriminate EB].
    + exfalso. exact (NC _ _ _ V eq_refl).
    + destruct (part_unique _ _ _ _ NE' NE ST' ST LO' LO EB) as [-> ->]. f_equal. now apply IH.
Qed.

Lemma C93_lemma_shown : forall bytes cs, from_utf8_lossy bytes = cs <-> shown bytes cs.
Proof.
  intros bytes cs. split; [intros <-; now apply (shown_lossy (List.length bytes))|]. intro S. exact (shown_unique _ _ (shown_lossy (List.length bytes) bytes (le_n _)) _ S).
Qed.

Lemma C93_lemma_valid : forall chars bytes, Forall2 utf8 chars bytes -> from_utf8_lossy (List.concat bytes) = chars.
Proof.
  intros chars bytes F. apply C93_lemma_shown. induction F as [|c w chars bytes U F IH]; cbn [List.concat]; now constructor.
Qed.

Lemma shown_chars bytes cs : shown bytes cs -> Forall (fun c => c < 1114112) cs.
Proof. induction 1 as [|c w rest cs U _ IH|]; constructor; try assumption; try lia. destruct U; lia. Qed.

(** ** Lines *)
Definition xline_ok (l : example_line) : Prop :=
  match l with
  | XDynamic v => exists bits, v = bitvec_of bits
  | XSize name _ => name = "gzip --fast"%string \/ name = "gzip [--default]"%string
  | XHint _ _ guess hint => Forall literal_byte guess /\ hint <> Correct
  | XGuesser t _ => exists p d c, with_sixteen p d c = Ok (t_refs t)
  | _ => True
  end.

Lemma with_sixteen_parts p d c r : with_sixteen p d c = Ok r -> ar_preroll r = p /\ ar_data r = d.
Proof. unfold with_sixteen. intro E. apply obind_ok in E. destruct E as (m & _ & E). injection E as <-. auto. Qed.

Definition table_line (l : N * list nat) : list N := text " - " ++ hex4 (fst l) ++ text ": " ++ list_debug (fun n => decimal (N.of_nat n)) (snd l) ++ [10].
Lemma table_line_inj : unamb (fun l => fst l < 65536) table_line.
Proof.
  intros [h1 v1] [h2 v2] x y P1 P2 E'. unfold table_line in E'. cbn [fst snd] in *. rewrite <- !app_assoc in E'. apply app_inv_head in E'. apply hex4_inj in E'; [|assumption..]. destruct E' as [-> E'].
  apply app_inv_head in E'. destruct (nats_inj _ _ _ _ I I E') as [-> E2']. apply app_inv_head in E2'. auto.
Qed.

(** The text of a match finder ends before what follows it, and says where which hashes are. *)
Lemma refs_text_ok p d c r : with_sixteen p d c = Ok r -> exists lines, Forall (fun l => fst l < 65536) lines /\ refs_text r = Ok (List.concat (map table_line lines) ++ [10]).
Proof.
  intro E. unfold with_sixteen in E. destruct (C67_lemma_table p d) as (m & lines & F & D & _). rewrite F in E. cbn [obind] in E. injection E as <-.
  exists lines. split; [exact (bm_debug_hash m lines D)|]. unfold refs_text. cbn [ar_map]. rewrite (table_text_ok m lines D). reflexivity.
Qed.

Lemma refs_text_inj p1 d1 c1 r1 p2 d2 c2 r2 t1 t2 x y : with_sixteen p1 d1 c1 = Ok r1 -> with_sixteen p2 d2 c2 = Ok r2 ->
  refs_text r1 = Ok t1 -> refs_text r2 = Ok t2 -> t1 ++ x = t2 ++ y -> t1 = t2 /\ x = y.
Proof.
  intros W1 W2 T1 T2 E. destruct (refs_text_ok _ _ _ _ W1) as (l1 & P1 & E1). destruct (refs_text_ok _ _ _ _ W2) as (l2 & P2 & E2).
  rewrite E1 in T1. rewrite E2 in T2. apply Ok_inj in T1. apply Ok_inj in T2. subst t1 t2. rewrite <- !app_assoc in E. cbn [app] in E.
  destruct (concat_end _ table_line 10 table_line_inj ltac:(intros a _ u; cbn; discriminate) _ _ _ _ P1 P2 E) as [-> ->]. auto.
Qed.

Lemma refs_text_same p1 d1 c1 r1 p2 d2 c2 r2 : with_sixteen p1 d1 c1 = Ok r1 -> with_sixteen p2 d2 c2 = Ok r2 ->
  (refs_text r1 = refs_text r2 <-> forall hash, filter (fun q => hash3 (p1 ++ d1) q =? hash) (seq 1 (List.length (p1 ++ d1) - 3))
     = filter (fun q => hash3 (p2 ++ d2) q =? hash) (seq 1 (List.length (p2 ++ d2) - 3))).
Proof.
  intros W1 W2. destruct (C69_lemma_refs p1 d1 c1 p2 d2 c2) as (a & b & ta & tb & A1 & B1 & A2 & B2 & H). rewrite W1 in A1. rewrite W2 in B1. injection A1 as <-. injection B1 as <-.
  rewrite A2, B2. rewrite <- H. split; [apply Ok_inj|congruence].
Qed.

Ltac peel E := rewrite <- ?app_assoc in E; apply app_inv_head in E.
Ltac peeln E := rewrite <- ?app_assoc in E; apply decimal_inj in E; [|cbn; unfold is_digit; lia..]; let X := fresh "EN" in destruct E as [X E].

Lemma lookahead_config_inj : unamb (fun _ => True) lookahead_config_debug.
Proof.
  intros [a1 b1] [a2 b2] x y _ _ E. unfold lookahead_config_debug in E. cbn [apathetic_above_length abort_above_length] in E. peel E. peeln E. peel E. peeln E. peel E. subst. auto.
Qed.

Lemma option_inj {A} P (f : A -> list N) (U : forall a b x y, P a -> P b -> f a ++ text ")" ++ x = f b ++ text ")" ++ y -> a = b /\ x = y) :
  forall a b x y, (forall v, a = Some v -> P v) -> (forall v, b = Some v -> P v) -> option_debug f a ++ x = option_debug f b ++ y -> a = b /\ x = y.
Proof.
  intros [a|] [b|] x y PA PB E; cbn [option_debug] in E; try discriminate E.
  - peel E. destruct (U _ _ _ _ (PA _ eq_refl) (PB _ eq_refl) E) as [-> ->]. auto.
  - peel E. auto.
Qed.

Lemma wams_inj : unamb (fun _ => True) wams_debug.
Proof.
  intros [a1 b1 c1 e1] [a2 b2 c2 e2] x y _ _ E. unfold wams_debug in E. cbn [quit_search_above_length limit_count_of_distances insert_only_below_length wams_lookahead] in E.
  peel E. peeln E. peel E. peeln E. peel E. rewrite <- ?app_assoc in E. apply (option_inj (fun _ => True)) in E; [|clear; intros a b x y _ _ E; peeln E; peel E; auto|auto..]. destruct E as [-> E].
  peel E. rewrite <- ?app_assoc in E. apply (option_inj (fun _ => True)) in E; [|clear; intros a b x y _ _ E; apply lookahead_config_inj in E; [|exact I..]; destruct E as [-> E]; peel E; auto|auto..].
  destruct E as [-> E]. peel E. split; [f_equal; lia|exact E].
Qed.

Lemma config_inj : unamb (fun _ => True) config_debug.
Proof.
  intros [a1 b1 c1 e1] [a2 b2 c2 e2] x y _ _ E. unfold config_debug in E. cbn [first_byte_bug cfg_lookahead cfg_picker cfg_wams] in E. peel E. rewrite <- ?app_assoc in E.
  assert (a1 = a2) as <- by (destruct a1, a2; try reflexivity; discriminate E). apply app_inv_head in E. peel E. rewrite <- ?app_assoc in E.
  assert (b1 = b2) as <- by (destruct b1, b2; try reflexivity; try discriminate E; exfalso; revert E; apply (nth_differs 1 0); discriminate). apply app_inv_head in E. peel E. rewrite <- ?app_assoc in E.
  assert (c1 = c2) as <- by (destruct c1, c2; try reflexivity; discriminate E). apply app_inv_head in E. peel E. rewrite <- ?app_assoc in E.
  apply wams_inj in E; [|exact I..]. destruct E as [-> E]. peel E. auto.
Qed.

Lemma obscures_inj : unamb (fun _ => True) (list_debug obscure_debug).
Proof.
  intros a b x y _ _. refine (list_debug_inj (fun _ => True) obscure_debug _ _ a b x y _ _); [|intros o _ z; cbn; discriminate|apply Forall_forall; auto..].
  intros [p1 l1] [p2 l2] u v _ _ E. unfold obscure_debug in E. cbn [fst snd] in E. peel E. peeln E. peel E. peeln E. peel E. split; [f_equal; lia|exact E].
Qed.

Lemma decimal_hd n x : 48 <= hd 0 (decimal n ++ x) <= 57.
Proof.
  assert (H := decimal_digits n). destruct (C69_lemma_numbers n) as (_ & _ & NN & _). destruct (decimal n) as [|d l]; [congruence|]. inversion H; subst. exact H2.
Qed.

Lemma padded_inj n m x y : no_digit x -> no_digit y -> padded n ++ x = padded m ++ y -> n = m /\ x = y.
Proof.
  unfold padded. intros HX HY E. rewrite <- !app_assoc in E. assert (HN := decimal_hd n x). assert (HM := decimal_hd m y).
  apply decimal_inj; [assumption..|]. revert E HN HM. generalize (decimal n ++ x), (decimal m ++ y). clear. intros u v. generalize (4 - List.length (decimal n))%nat, (4 - List.length (decimal m))%nat.
  induction n0 as [|k IH]; intros [|k'] E HU HV; cbn [repeat app] in E.
  - exact E.
  - rewrite E in HU. cbn in HU. lia.
  - rewrite <- E in HV. cbn in HV. lia.
  - apply cons_inj in E. destruct E as [_ E]. now apply IH in E.
Qed.

Lemma padded_hd n x : exists c l, padded n ++ x = c :: l /\ c <> 42.
Proof.
  unfold padded. destruct (4 - List.length (decimal n))%nat; cbn [repeat app].
  - assert (H := decimal_hd n x). destruct (decimal n ++ x) as [|c l]; cbn [hd] in H; [lia|]. exists c, l. split; [reflexivity|lia].
  - eexists _, _. split; [reflexivity|discriminate].
Qed.

Lemma xline_text_ok plain l : xline_ok l -> exists t, example_line_text plain l = Ok t.
Proof.
  destruct l; cbn [xline_ok example_line_text]; eauto.
  - intros (bits & ->). rewrite bitvec_text. cbn [obind]. eauto.
  - intros (p & d & c & W). unfold scanner_debug, technique_debug. destruct (refs_text_ok _ _ _ _ W) as (ls & _ & ->). cbn [obind]. eauto.
Qed.

(** What a line starts with. *)
Definition line_kind (l : example_line) : nat :=
  match l with XBlock _ => 0 | XStored _ => 1 | XFixed => 2 | XDynamic _ => 3 | XSize _ _ => 4 | XHint _ _ _ _ => 5 | XGuesser _ _ => 6 | XBlank => 7 end.
Definition kind_of (t : list N) : nat :=
  if hd 0 t =? 10 then 7
  else if hd 0 t =? 98 then 0
  else if nth 1 t 0 =? 45 then (if nth 3 t 0 =? 117 then 1 else if nth 3 t 0 =? 102 then 2 else 3)
  else if nth 3 t 0 =? 42 then (if nth 5 t 0 =? 116 then 4 else 6)
  else 5.
Lemma kind_of_line plain l t x : xline_ok l -> example_line_text plain l = Ok t -> kind_of (t ++ 10 :: x) = line_kind l.
Proof.
  destruct l; cbn [xline_ok example_line_text]; intros P E.
  - apply Ok_inj in E. subst t. reflexivity.
  - apply Ok_inj in E. subst t. reflexivity.
  - apply Ok_inj in E. subst t. reflexivity.
  - apply obind_ok in E. destruct E as (u & _ & E). apply Ok_inj in E. subst t. reflexivity.
  - apply Ok_inj in E. subst t. reflexivity.
  - apply Ok_inj in E. subst t. rewrite <- !app_assoc. match goal with |- kind_of (_ ++ padded ?n ++ ?r) = _ => destruct (padded_hd n r) as (c & l & -> & HC) end.
    cbn [line_kind]. unfold kind_of. cbn [text map list_ascii_of_string app hd nth]. replace (c =? 42) with false by lia. reflexivity.
  - apply obind_ok in E. destruct E as (u & _ & E). apply Ok_inj in E. subst t. reflexivity.
  - apply Ok_inj in E. subst t. reflexivity.
Qed.

Lemma codes_text_inj : unamb (Forall literal_byte) (list_debug code_debug).
Proof. exact (list_debug_inj literal_byte code_debug code_debug_inj ltac:(intros [?|?] _ x; cbn; discriminate)). Qed.

Lemma shown_of bytes : shown bytes (from_utf8_lossy bytes).
Proof. now apply C93_lemma_shown. Qed.

Local Opaque refs_text.
Lemma guesser_text_inj plain technique technique0 scanner scanner0 t1 t2 x y : xline_ok (XGuesser technique scanner) -> xline_ok (XGuesser technique0 scanner0) ->
  example_line_text plain (XGuesser technique scanner) = Ok t1 -> example_line_text plain (XGuesser technique0 scanner0) = Ok t2 ->
  t1 ++ 10 :: x = t2 ++ 10 :: y -> says_same (XGuesser technique scanner) (XGuesser technique0 scanner0) /\ x = y.
Proof.
  cbn [example_line_text xline_ok says_same]. intros P1 P2 T1 T2 E.
  destruct P1 as (p1 & d1 & c1 & W1), P2 as (p2 & d2 & c2 & W2). unfold scanner_debug, technique_debug in T1, T2.
    destruct (refs_text (t_refs technique)) as [r1| | |] eqn:R1; try discriminate. destruct (refs_text (t_refs technique0)) as [r2| | |] eqn:R2; try discriminate. cbn [obind] in T1, T2.
    apply Ok_inj in T1. apply Ok_inj in T2. subst t1 t2. peel E. peel E. peel E. rewrite <- ?app_assoc in E. apply config_inj in E; [|exact I..]. destruct E as [EC E]. peel E. rewrite <- ?app_assoc in E.
    destruct (refs_text_inj _ _ _ _ _ _ _ _ _ _ _ _ W1 W2 R1 R2 E) as [<- E']. clear E. rename E' into E. peel E. peel E. rewrite <- ?app_assoc in E.
    apply obscures_inj in E; [|exact I..]. destruct E as [EO E]. peel E. peeln E. peel E. apply cons_inj in E. destruct E as [_ E]. split; [|exact E]. split; [exact EC|]. split.
    + destruct scanner as [o1 q1], scanner0 as [o2 q2]. cbn [sc_obscured sc_pos] in *. f_equal; [assumption|lia].
    + unfold searched. destruct (with_sixteen_parts _ _ _ _ W1) as [-> ->]. destruct (with_sixteen_parts _ _ _ _ W2) as [-> ->].
      apply (refs_text_same _ _ _ _ _ _ _ _ W1 W2). now rewrite R1, R2.
Qed.

Lemma hint_text_inj plain pos context guess hint pos0 context0 guess0 hint0 t1 t2 x y : xline_ok (XHint pos context guess hint) -> xline_ok (XHint pos0 context0 guess0 hint0) ->
  example_line_text plain (XHint pos context guess hint) = Ok t1 -> example_line_text plain (XHint pos0 context0 guess0 hint0) = Ok t2 ->
  t1 ++ 10 :: x = t2 ++ 10 :: y -> says_same (XHint pos context guess hint) (XHint pos0 context0 guess0 hint0) /\ x = y.
Proof.
  cbn [example_line_text xline_ok says_same]. intros P1 P2 T1 T2 E.
  apply Ok_inj in T1. apply Ok_inj in T2. subst t1 t2. destruct P1 as [L1 N1], P2 as [L2 N2]. peel E. rewrite <- ?app_assoc in E.
    apply padded_inj in E; [|cbn; unfold is_digit; lia..]. destruct E as [EP E]. peel E. rewrite <- ?app_assoc in E.
    apply string_debug_inj in E; [|eapply shown_chars, shown_of..]. destruct E as [ES E]. peel E. rewrite <- ?app_assoc in E.
    apply codes_text_inj in E; [|assumption..]. destruct E as [-> E]. peel E.
    assert (H : hint = hint0 /\ x = y).
    { destruct hint as [| |r], hint0 as [| |r0]; try congruence; try discriminate E.
      - peel E. apply cons_inj in E. destruct E as [_ E]. auto.
      - apply ref_debug_inj in E; [|exact I..]. destruct E as [-> E]. apply cons_inj in E. destruct E as [_ E]. auto. }
    destruct H as [-> ->]. split; [|reflexivity]. split; [lia|]. split; [|auto]. exists (from_utf8_lossy context). split; [apply shown_of|]. rewrite ES. apply shown_of.
Qed.

Lemma xline_text_inj plain l1 l2 t1 t2 x y : xline_ok l1 -> xline_ok l2 -> example_line_text plain l1 = Ok t1 -> example_line_text plain l2 = Ok t2 ->
  t1 ++ 10 :: x = t2 ++ 10 :: y -> says_same l1 l2 /\ x = y.
Proof.
  intros P1 P2 T1 T2 E. assert (K : line_kind l1 = line_kind l2) by (rewrite <- (kind_of_line plain l1 t1 x P1 T1), E; exact (kind_of_line plain l2 t2 y P2 T2)).
  destruct l1, l2; try discriminate K; clear K; cbn [example_line_text xline_ok says_same] in *.
  - apply Ok_inj in T1. apply Ok_inj in T2. subst t1 t2. peel E. peeln E. peel E. apply cons_inj in E. destruct E as [_ E]. split; [f_equal; lia|exact E].
  - apply Ok_inj in T1. apply Ok_inj in T2. subst t1 t2. peel E. peeln E. peel E. apply cons_inj in E. destruct E as [_ E]. split; [f_equal; lia|exact E].
  - apply Ok_inj in T1. apply Ok_inj in T2. subst t1 t2. peel E. apply cons_inj in E. destruct E as [_ E]. auto.
  - destruct P1 as (b1 & ->), P2 as (b2 & ->). rewrite bitvec_text in T1, T2. cbn [obind] in T1, T2. apply Ok_inj in T1. apply Ok_inj in T2. subst t1 t2.
    peel E. peel E. peeln E. peel E. rewrite <- ?app_assoc in E. apply bits_text_inj in E; [|cbn; lia..]. destruct E as [-> E]. apply cons_inj in E. destruct E as [_ E]. auto.
  - apply Ok_inj in T1. apply Ok_inj in T2. subst t1 t2. peel E. rewrite <- ?app_assoc in E.
    assert (name = name0) as <- by (destruct P1 as [->| ->], P2 as [->| ->]; try reflexivity; exfalso; revert E; apply (nth_differs 5 0); discriminate).
    apply app_inv_head in E. peel E. peeln E. apply cons_inj in E. destruct E as [_ E]. split; [f_equal; lia|exact E].
  - exact (hint_text_inj plain _ _ _ _ _ _ _ _ _ _ _ _ P1 P2 T1 T2 E).
  - exact (guesser_text_inj plain _ _ _ _ _ _ _ _ P1 P2 T1 T2 E).
  - apply Ok_inj in T1. apply Ok_inj in T2. subst t1 t2. apply cons_inj in E. destruct E as [_ E]. auto.
Qed.

Lemma says_same_text plain l1 l2 : xline_ok l1 -> xline_ok l2 -> says_same l1 l2 -> example_line_text plain l1 = example_line_text plain l2.
Proof.
  intros P1 P2 S. destruct l1, l2; cbn [says_same] in S; try discriminate S; try reflexivity; try (now rewrite S); cbn [xline_ok example_line_text] in *.
  - destruct S as (-> & (s & S1 & S2) & -> & ->). apply C93_lemma_shown in S1. apply C93_lemma_shown in S2. now rewrite S1, S2.
  - destruct S as (EC & -> & S). destruct P1 as (p1 & d1 & c1 & W1), P2 as (p2 & d2 & c2 & W2). unfold searched in S.
    destruct (with_sixteen_parts _ _ _ _ W1) as [X1 X2]. destruct (with_sixteen_parts _ _ _ _ W2) as [X3 X4]. rewrite X1, X2, X3, X4 in S.
    apply (refs_text_same _ _ _ _ _ _ _ _ W1 W2) in S. unfold scanner_debug, technique_debug. now rewrite S, EC.
Qed.

Lemma xtext_ok plain lines : Forall xline_ok lines -> exists t, example_text plain lines = Ok t.
Proof.
  induction 1 as [|l lines HL _ (t & E)]; cbn [example_text]; [eauto|]. destruct (xline_text_ok plain l HL) as (t1 & E1). rewrite E1. cbn [obind]. rewrite E. cbn [obind]. eauto.
Qed.

Lemma xtext_inj plain a : forall b t, Forall xline_ok a -> Forall xline_ok b -> example_text plain a = Ok t -> example_text plain b = Ok t -> Forall2 says_same a b.
Proof.
  induction a as [|l a IH]; intros [|m b] t HA HB EA EB; [constructor|..]; cbn [example_text] in EA, EB.
  - apply Ok_inj in EA. subst t. apply obind_ok in EB. destruct EB as (t1 & _ & EB). apply obind_ok in EB. destruct EB as (t2 & _ & EB). destruct t1; discriminate EB.
  - apply Ok_inj in EB. subst t. apply obind_ok in EA. destruct EA as (t1 & _ & EA). apply obind_ok in EA. destruct EA as (t2 & _ & EA). destruct t1; discriminate EA.
  - inversion HA; inversion HB; subst. apply obind_ok in EA. destruct EA as (t1 & E1 & EA). apply obind_ok in EA. destruct EA as (t2 & E2 & EA). apply Ok_inj in EA.
    apply obind_ok in EB. destruct EB as (t3 & E3 & EB). apply obind_ok in EB. destruct EB as (t4 & E4 & EB). apply Ok_inj in EB. subst t.
    destruct (xline_text_inj plain l m t1 t3 t2 t4 H1 H5 E1 E3 (eq_sym EB)) as [S ->]. constructor; [exact S|]. eapply IH; eassumption.
Qed.

Lemma xtext_same plain a b : Forall2 says_same a b -> Forall xline_ok a -> Forall xline_ok b -> example_text plain a = example_text plain b.
Proof.
  induction 1 as [|l m a b S F IH]; intros HA HB; [reflexivity|]. inversion HA; inversion HB; subst. cbn [example_text]. rewrite (says_same_text plain l m), IH by assumption. reflexivity.
Qed.

(** ** Every printed line is such a line *)
Definition printed_ok (o : outcome unit * (circ * list example_line)) : Prop :=
  Forall xline_ok (snd (snd o)) /\ (fst o = Ok tt -> exists hist, bytes_ok hist /\ ring 32768 hist (fst (snd o))).

Lemma guess_bytes p d c refs config s g : bytes_ok p -> bytes_ok d -> with_sixteen p d c = Ok refs -> sc_codes (mkTechnique config refs) s = Ok g -> Forall literal_byte g.
Proof.
  intros BP BD W E. destruct s as [ob pos].
  assert (HP : (pos < List.length (p ++ d))%nat).
  { destruct (with_sixteen_parts _ _ _ _ W) as [X1 X2].
    assert (H : exists b, ar_get refs pos = Ok b).
    { unfold sc_codes in E. cbn [sc_obscured sc_pos t_config] in E.
      assert (B : exists x, best_candidate (mkTechnique config refs) ob pos = Ok x).
      { destruct (cfg_lookahead config); cbn [lookahead] in E; unfold la_greedy, la_gzip, la_three_zip in E; apply obind_ok in E; destruct E as (x & E & _); eauto. }
      destruct B as (x & B). unfold best_candidate, best_candidate_better_than in B. apply obind_ok in B. destruct B as (b & B & _). eauto. }
    destruct H as (b & H). unfold ar_get in H. rewrite X1, X2 in H. rewrite app_length. unfold get_idx in H.
    destruct (Nat.ltb_spec pos (List.length p)); [lia|]. destruct (nth_error d _) eqn:EN; [|discriminate]. assert (X : nth_error d (pos - List.length p) <> None) by congruence.
    apply nth_error_Some in X. lia. }
  destruct (C38_lemma p d c config refs ob pos BP BD W HP) as (codes & n & E' & _ & _ & _ & F & _). rewrite E in E'. injection E' as <-.
  eapply Forall_impl; [|exact F]. intros [b|r]; cbn; auto.
Qed.

Lemma hints_ok p d c refs config : bytes_ok p -> bytes_ok d -> with_sixteen p d c = Ok refs -> forall traces codes dec s printed,
  Forall xline_ok printed -> Forall xline_ok (snd (example_hints (mkTechnique config refs) dec s traces codes printed)).
Proof.
  intros BP BD W. induction traces as [|h traces IH]; intros [|code codes] dec s printed HP; cbn [example_hints]; try exact HP.
  unfold bind at 1. unfold lift at 1. destruct (slice dec _ _) as [loc|?|?|]; try exact HP. destruct h as [| |r].
  - unfold bind at 1. cbn [ret]. apply IH, HP.
  - unfold bind at 1. unfold bind at 1. unfold lift. destruct (sc_codes _ s) as [g|?|?|] eqn:EG; try exact HP. unfold example_println at 1. apply IH. apply Forall_app. split; [exact HP|].
    constructor; [|constructor]. split; [|discriminate]. exact (guess_bytes p d c refs config s g BP BD W EG).
  - unfold bind at 1. unfold bind at 1. unfold lift. destruct (sc_codes _ s) as [g|?|?|] eqn:EG; try exact HP. unfold example_println at 1. apply IH. apply Forall_app. split; [exact HP|].
    constructor; [|constructor]. split; [|discriminate]. exact (guess_bytes p d c refs config s g BP BD W EG).
Qed.

Definition keeps {A} (m : M (list example_line) A) : Prop := forall s, Forall xline_ok s -> Forall xline_ok (snd (m s)).
Lemma keeps_bind {A B} (m : M (list example_line) A) (k : A -> M (list example_line) B) : keeps m -> (forall a, keeps (k a)) -> keeps (bind m k).
Proof. intros HM HK s P. unfold bind. specialize (HM s P). destruct (m s) as [[a|e|p|] s']; cbn [snd] in *; auto. now apply HK. Qed.
Lemma keeps_lift {A} (o : outcome A) : keeps (lift o).
Proof. intros s P. exact P. Qed.
Lemma keeps_println l : xline_ok l -> keeps (example_println l).
Proof. intros H s P. cbn [example_println snd]. apply Forall_app. auto. Qed.

Lemma try_trace_ok p d c refs name config codes dec : bytes_ok p -> bytes_ok d -> with_sixteen p d c = Ok refs ->
  name = "gzip --fast"%string \/ name = "gzip [--default]"%string -> keeps (example_try_trace refs name config codes dec).
Proof.
  intros BP BD W HN. unfold example_try_trace. apply keeps_bind; [apply keeps_lift|]. intro tr. apply keeps_bind; [apply keeps_lift|]. intro ser.
  apply keeps_bind; [apply keeps_println; exact HN|]. intros _. apply keeps_bind; [|intro s; apply keeps_bind; [apply keeps_println; cbn; eauto|intros _; now apply keeps_println]].
  intros s HS. exact (hints_ok p d c refs config BP BD W _ _ _ _ _ HS).
Qed.

Lemma on_printed_ok {A} (m : M (list example_line) A) st : keeps m -> Forall xline_ok (snd st) ->
  Forall xline_ok (snd (snd (on_printed m st))) /\ fst (snd (on_printed m st)) = fst st.
Proof. intros K H. unfold on_printed, zoom. specialize (K _ H). destruct (m (snd st)) as [a s]. cbn [snd fst] in *. auto. Qed.

Lemma print_ok codes st hist : Forall code_ok codes -> bytes_ok hist -> ring 32768 hist (fst st) -> Forall xline_ok (snd st) -> printed_ok (example_print codes st).
Proof.
  intros HC HB R HP. unfold example_print. rewrite (ring_vec_lastn _ _ R).
  assert (X := block_run hist (fst st) (FixedHuffman codes) R). cbn [block_codes decompressed_block] in X.
  destruct (lz_decode 32768 hist codes) as [h|] eqn:HE.
  2: { destruct X as (e & [dd oo] & ->). split; [exact HP|discriminate]. }
  destruct X as (data & d' & -> & -> & _ & R'). cbn [written].
  assert (HD : bytes_ok (hist ++ data)) by exact (lz_decode_bytes _ _ _ _ HB HC HE).
  assert (BD : bytes_ok data) by (apply Forall_app in HD; apply HD).
  assert (BP := lastn_bytes (N.to_nat 32768) hist HB). set (p := lastn (N.to_nat 32768) hist) in *.
  destruct (with_sixteen p data 4) as [r1|?|?|] eqn:E1; try (split; [exact HP|discriminate]).
  destruct (with_sixteen p data 6) as [r2|?|?|] eqn:E2; try (split; [exact HP|discriminate]).
  destruct (with_sixteen p data 65535) as [r3|?|?|] eqn:E3; try (split; [exact HP|discriminate]).
  unfold bind at 1 2 3, lift at 1 2 3.
  destruct (Config_gzip 1) as [c1|?|?|] eqn:G1; try discriminate G1. destruct Config_gzip_16_default as [c6|?|?|] eqn:G6; try discriminate G6.
  unfold bind at 1. unfold lift at 1. unfold bind at 1.
  destruct (on_printed_ok (example_try_trace r1 "gzip --fast" c1 codes data) (d', snd st) (try_trace_ok _ _ _ _ _ _ _ _ BP BD E1 (or_introl eq_refl)) HP) as [H1 H2].
  destruct (on_printed (example_try_trace r1 "gzip --fast" c1 codes data) (d', snd st)) as [[u|?|?|] st1]; cbn [fst snd] in H1, H2; try (split; [exact H1|discriminate]).
  unfold bind at 1. unfold lift at 1.
  destruct (on_printed_ok (example_try_trace r3 "gzip [--default]" c6 codes data) st1 (try_trace_ok _ _ _ _ _ _ _ _ BP BD E3 (or_intror eq_refl)) H1) as [H3 H4].
  destruct (on_printed (example_try_trace r3 "gzip [--default]" c6 codes data) st1) as [o st2]. cbn [fst snd] in H3, H4.
  split; [exact H3|]. intros _. exists (hist ++ data). split; [exact HD|]. cbn [fst snd]. rewrite H4, H2. exact R'.
Qed.

Lemma block_ok id b st hist : block_wf b -> (exists off w, block_bits off b w) -> bytes_ok hist -> ring 32768 hist (fst st) -> Forall xline_ok (snd st) -> printed_ok (example_block id b st).
Proof.
  intros WB (off & w & BB) HB R HP. destruct st as [d printed]. cbn [fst snd] in *. unfold example_block. unfold bind at 1. cbn [on_printed zoom example_println fst snd].
  assert (P1 : Forall xline_ok (printed ++ [XBlock id])) by (apply Forall_app; split; [exact HP|repeat constructor]).
  destruct b as [data|codes|v codes]; unfold bind at 1; unfold on_printed at 1, zoom at 1; cbn [example_println fst snd].
  - assert (P2 : Forall xline_ok ((printed ++ [XBlock id]) ++ [XStored (List.length data)])) by (apply Forall_app; split; [exact P1|repeat constructor]).
    destruct (ring_extend _ data _ _ R) as (d' & -> & R'). split; [exact P2|]. intros _. exists (hist ++ data). split; [|exact R']. apply Forall_app. split; [exact HB|apply WB].
  - apply (print_ok codes (d, (printed ++ [XBlock id]) ++ [XFixed]) hist); [exact WB|exact HB|exact R|]. cbn [snd]. apply Forall_app. split; [exact P1|repeat constructor].
  - apply (print_ok codes (d, (printed ++ [XBlock id]) ++ [XDynamic v]) hist); [exact WB|exact HB|exact R|]. cbn [snd]. apply Forall_app. split; [exact P1|]. constructor; [|constructor].
    inversion BB; subst. cbn. eauto.
Qed.

Lemma loop_ok e fuel : forall id it bs st hist, live e it bs -> bytes_ok hist -> ring 32768 hist (fst st) -> Forall xline_ok (snd st) -> Forall xline_ok (snd (snd (example_loop fuel id it st))).
Proof.
  induction fuel as [|fuel IH]; intros id it bs st hist LV HB R HP; cbn [example_loop]; [exact HP|].
  destruct (next_live e it bs LV) as (o & it' & bs' & EN & LV' & _ & HBK & _). rewrite EN. destruct o as [[b|]|?|?|]; try exact HP.
  destruct (HBK b eq_refl) as (off & w & B1 & B2). unfold bind.
  destruct (block_ok id b st hist B2 ltac:(eauto) HB R HP) as [H1 H2]. destruct (example_block id b st) as [[[]|?|?|] st']; cbn [fst snd] in *; try exact H1.
  destruct (H2 eq_refl) as (hist' & HB' & R'). exact (IH _ _ _ _ _ LV' HB' R' H1).
Qed.

Lemma run_ok_lines file e : bytes_ok file -> Forall xline_ok (fst (example_run (mkSource file e))).
Proof.
  intro HB. unfold example_run. destruct (discard_header (mkSource file e)) as [[h|?|?|] s] eqn:EH; try constructor.
  destruct (C30_lemma _ _ _ _ EH) as (body & -> & EF & _). assert (HBB : bytes_ok body) by (rewrite EF in HB; apply Forall_app in HB; apply HB).
  destruct (ring_new 32768 ltac:(lia)) as (d & E0 & R0). unfold cb_new. change (cb_with_capacity 32768) with (cb_with_capacity (32 * 1024)) in E0. rewrite E0.
  assert (X := loop_ok e (8 * List.length (rest (mkSource body e)) + 2) 0 _ _ (d, []) [] (live_new body e HBB) ltac:(constructor) R0 ltac:(constructor)).
  destruct (example_loop _ _ _ _) as [o [d' printed]]. exact X.
Qed.

Lemma C93_lemma : forall plain file1 e1 file2 e2, bytes_ok file1 -> bytes_ok file2 ->
  let lines1 := fst (example_run (mkSource file1 e1)) in
  let lines2 := fst (example_run (mkSource file2 e2)) in
  exists t1 t2, example_text plain lines1 = Ok t1 /\ example_text plain lines2 = Ok t2 /\ (t1 = t2 <-> Forall2 says_same lines1 lines2).
Proof.
  intros plain f1 e1 f2 e2 B1 B2 lines1 lines2. assert (L1 := run_ok_lines f1 e1 B1). assert (L2 := run_ok_lines f2 e2 B2). fold lines1 in L1. fold lines2 in L2.
  destruct (xtext_ok plain _ L1) as (t1 & T1). destruct (xtext_ok plain _ L2) as (t2 & T2). exists t1, t2. split; [exact T1|]. split; [exact T2|]. split.
  - intros <-. exact (xtext_inj plain _ _ _ L1 L2 T1 T2).
  - intro S. apply Ok_inj. rewrite <- T1, <- T2. now apply xtext_same.
Qed.

Definition visible (b : N) : Prop := 32 <= b /\ b <> 127.
Lemma hex_digits_visible u : Forall visible (hex_digits u).
Proof. unfold visible. induction u; cbn [hex_digits]; constructor; auto; lia. Qed.
Lemma string_char_visible plain c : Forall visible (string_char plain c).
Proof.
  unfold string_char.
  repeat match goal with |- context [if ?x =? ?y then _ else _] => destruct (N.eqb_spec x y); [repeat constructor; vm_compute; discriminate|] end.
  destruct (if c <? 128 then in_range 32 126 c else plain c) eqn:E.
  - unfold encode_utf8. unfold in_range in E. destruct (N.ltb_spec c 128).
    + constructor; [unfold visible; lia|constructor].
    + clear E. destruct (N.ltb_spec c 2048); [|destruct (N.ltb_spec c 65536)]; repeat constructor; lia.
  - apply Forall_app. split; [repeat constructor; vm_compute; discriminate|]. apply Forall_app. split; [apply hex_digits_visible|repeat constructor; vm_compute; discriminate].
Qed.

Lemma C93_lemma_strings : forall plain,
  (forall a b, Forall (fun c => c < 1114112) a -> Forall (fun c => c < 1114112) b -> string_debug plain a = string_debug plain b -> a = b)
  /\ (forall a, Forall (fun c => 32 <= c <= 126 /\ c <> 34 /\ c <> 92) a -> string_debug plain a = [34] ++ a ++ [34])
  /\ (forall a, Forall (fun b => 32 <= b /\ b <> 127) (string_debug plain a)).
Proof.
  intro plain. split; [|split].
  - intros a b PA PB E. apply (string_debug_inj plain a b [] [] PA PB). now rewrite !app_nil_r.
  - intros a F. unfold string_debug. do 2 f_equal. induction F as [|c a (H1 & H2 & H3) F IH]; [reflexivity|]. cbn [map List.concat]. rewrite IH.
    unfold string_char, encode_utf8, in_range. repeat match goal with |- context [if ?b then _ else _] => first [replace b with true by lia|replace b with false by lia] end. reflexivity.
  - intro a. unfold string_debug. constructor; [split; vm_compute; discriminate|]. apply Forall_app. split; [|constructor; [split; vm_compute; discriminate|constructor]].
    induction a as [|c a IH]; [constructor|]. cbn [map List.concat]. apply Forall_app. split; [apply string_char_visible|exact IH].
Qed.

Lemma C93_lemma_encode : forall c w, utf8 c w -> encode_utf8 c = w.
Proof.
  intros c w U. unfold encode_utf8. destruct U as [c H|a b H1 H2 H3|a b c H1 H2 H3 H4 H5|a b c d H1 H2 H3 H4 H5].
  - now rewrite (proj2 (N.ltb_lt _ _) H).
  - set (n := a * 64 + b). replace (n <? 128) with false by lia. replace (n <? 2048) with true by lia. replace (n / 64) with a by lia. replace (n mod 64) with b by lia. reflexivity.
  - set (n := a * 4096 + b * 64 + c). replace (n <? 128) with false by lia. replace (n <? 2048) with false by lia. replace (n <? 65536) with true by lia.
    replace (n / 4096) with a by lia. replace (n / 64) with (a * 64 + b) by lia. replace (n mod 64) with c by lia. replace ((a * 64 + b) mod 64) with b by lia. reflexivity.
  - set (n := a * 262144 + b * 4096 + c * 64 + d). replace (n <? 128) with false by lia. replace (n <? 2048) with false by lia. replace (n <? 65536) with false by lia.
    replace (n / 262144) with a by lia. replace (n / 4096) with (a * 64 + b) by lia. replace (n / 64) with ((a * 64 + b) * 64 + c) by lia. replace (n mod 64) with d by lia.
    replace (((a * 64 + b) * 64 + c) mod 64) with c by lia. replace ((a * 64 + b) mod 64) with b by lia. reflexivity.
Qed.

(** The byte 255 starts no character. *)
Lemma shown_255 b : 248 <= b -> shown [b] [65533].
Proof. intro H. apply C93_lemma_shown. unfold from_utf8_lossy, in_range. replace (b <? 128) with false by lia.
  replace ((194 <=? b) && (b <=? 223)) with false by lia. replace ((224 <=? b) && (b <=? 239)) with false by lia. replace ((240 <=? b) && (b <=? 244)) with false by lia. reflexivity. Qed.
