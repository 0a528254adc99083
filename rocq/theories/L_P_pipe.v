(** Proofs of C110, and of C108 for processes. *)
From Verif Require Import Base M_bit M_lib M_circles M_gzip M_parse M_serialise M_rezippers M_dump M_text M_io M_main Spec Clients Clients_file Clients_zero Clients_io Clients_main Clients_verdict
  L_bits L_ring L_parse L_P_circ L_P_parse L_P_gzip L_rsync L_P_rez L_P_zero L_P_rsync L_P_main L_P_text L_P_file L_P_verdict L_P_dumpcat L_P_zdump.
From Coq Require Import ZArith ZifyBool ZifyNat ZifyN.
Ltac Zify.zify_post_hook ::= Z.div_mod_to_equations.
Local Open Scope N_scope.

Lemma ready_does inflate split c w bytes o text : (forall l, List.concat (split l) = l) -> ready w c bytes ->
  (forall e, does inflate c (mkSource bytes e) o text) -> main_run inflate split c w = (status_of o, text).
Proof. intros HS (events & e & HI & OK & <- & EW & WO & WF) HD. eapply C75_lemma; eauto. Qed.

Lemma zeroed_ok header content chunks : bytes_ok header -> bytes_ok content -> chunks_of content chunks ->
  bytes_ok (header ++ chunks_bytes chunks ++ le32_bytes (crc32 content) ++ le32_bytes (N.of_nat (List.length content) mod 2 ^ 32)).
Proof.
  intros HH HC EC. destruct (C48_lemma content HC) as (cs & EC' & EFl & _). assert (cs = chunks) as -> by (unfold chunks_of in EC; congruence).
  apply Forall_app. split; [exact HH|]. apply Forall_app. split; [apply chunks_bytes_ok, bytes_ok_flat; now rewrite EFl|]. apply Forall_app. split; apply le32_ok.
Qed.

Lemma C110_lemma : forall inflate split header content file chunks f w, (forall l, List.concat (split l) = l) -> decompressor_right inflate -> bytes_ok file ->
  gzip_of header content file -> content <> [] -> chunks_of content chunks -> (forall c, In c chunks -> N.of_nat (List.length c) <> 65536) ->
  ready w (Zero f) file ->
  exists zeroed, main_run inflate split (Zero f) w = (Some 0, zeroed)
    /\ (forall g w', ready w' (Cat g) zeroed -> main_run inflate split (Cat g) w' = (Some 0, content))
    /\ (forall g w', ready w' (Zero g) zeroed -> main_run inflate split (Zero g) w' = (Some 0, zeroed))
    /\ (forall g w', ready w' (Dump g) zeroed -> exists text, main_run inflate split (Dump g) w' = (Some 0, text)
          /\ dump_text (flat_map (fun p => [DBlock (fst p); DStored (snd p)]) (combine (seq 0 (List.length chunks)) (map (@List.length N) chunks))) = Ok text).
Proof.
  intros inflate split header content file chunks f w HS DR HB G NE EC NC RW.
  destruct (gzip_of_parts _ _ _ HB G) as (HH & HC & CAT & _).
  destruct (C78_lemma _ _ _ _ _ DR HB G NE EC NC) as (z & Z & GZ & CZ & OZ). destruct (C109_lemma _ _ _ _ _ DR HB G NE EC NC) as (z' & Z' & DZ).
  assert (z' = z) as -> by (specialize (Z UnexpectedEof); rewrite (Z' UnexpectedEof) in Z; congruence).
  assert (BZ : bytes_ok z).
  { assert (X := zeroed inflate header content file chunks DR HB G NE EC UnexpectedEof). rewrite (Z UnexpectedEof) in X. injection X as ->. now apply zeroed_ok. }
  exists z. split; [|split; [|split]].
  - change (Some 0) with (status_of (Ok tt)). eapply ready_does; eauto. intro e. eexists. split; [apply Z|reflexivity].
  - intros g w' RC. change (Some 0) with (status_of (Ok tt)). eapply ready_does; eauto. intro e. eexists. split; [rewrite (CZ e e); apply CAT|reflexivity].
  - intros g w' RC. change (Some 0) with (status_of (Ok tt)). eapply ready_does; eauto. intro e. eexists. split; [apply OZ; assumption|reflexivity].
  - intros g w' RC. destruct (C75_lemma_always inflate (Dump g) z UnexpectedEof BZ) as (o & text & lines & ED & ET). rewrite DZ in ED. injection ED as <- <-.
    exists text. split; [|exact ET]. change (Some 0) with (status_of (Ok tt)). eapply ready_does; eauto. intro e. eexists. split; [apply DZ|exact ET].
Qed.

Lemma C108_lemma_processes : forall inflate split file file' f f' g g' w w' v v', (forall l, List.concat (split l) = l) -> bytes_ok file -> bytes_ok file' ->
  ready w (Dump f) file -> ready w' (Dump f') file' -> ready v (Cat g) file -> ready v' (Cat g') file' ->
  main_run inflate split (Dump f) w = main_run inflate split (Dump f') w' ->
  exists status out out', main_run inflate split (Cat g) v = (status, out) /\ main_run inflate split (Cat g') v' = (status, out')
    /\ List.length out = List.length out'.
Proof.
  intros inflate split f1 f2 f f' g g' w w' v v' HS B1 B2 (n1 & e1 & I1 & R1 & X1 & W1 & O1 & F1) (n2 & e2 & I2 & R2 & X2 & W2 & O2 & F2)
    (n3 & e3 & I3 & R3 & X3 & W3 & O3 & F3) (n4 & e4 & I4 & R4 & X4 & W4 & O4 & F4) ED.
  destruct (C88_lemma_always f1 B1) as (b1 & en1 & E1). destruct (C88_lemma_always f2 B2) as (b2 & en2 & E2).
  destruct (C88_lemma_decodes (flat_map block_codes b1)) as (d1 & a1 & D1). destruct (C88_lemma_decodes (flat_map block_codes b2)) as (d2 & a2 & D2).
  destruct (C69_lemma_dump f1 e1 f2 e2 B1 B2) as (t1 & t2 & T1 & T2 & INJ).
  rewrite (C88_lemma_dump _ e1 _ _ B1 E1) in T1, INJ. rewrite (C88_lemma_dump _ e2 _ _ B2 E2) in T2, INJ. cbn [fst] in *.
  assert (P1 : main_run inflate split (Dump f) w = (Some (match en1 with Complete => 0 | _ => 1 end), t1)) by (eapply C88_lemma_status_dump; rewrite ?X1; eassumption).
  assert (P2 : main_run inflate split (Dump f') w' = (Some (match en2 with Complete => 0 | _ => 1 end), t2)) by (eapply C88_lemma_status_dump; rewrite ?X2; eassumption).
  rewrite P1, P2 in ED. injection ED as ES ET. apply INJ in ET. apply C57_lemma_complete in ET.
  destruct (alike_decodes _ _ _ _ _ _ (alike_codes _ _ ET) D1 D2) as [LD EA]. subst a2.
  assert (P3 : main_run inflate split (Cat g) v = (Some (match en1, a1 with Complete, true => 0 | _, _ => 1 end), d1)) by (eapply C88_lemma_status; rewrite ?X3; eassumption).
  assert (P4 : main_run inflate split (Cat g') v' = (Some (match en2, a1 with Complete, true => 0 | _, _ => 1 end), d2)) by (eapply C88_lemma_status; rewrite ?X4; eassumption).
  eexists _, d1, d2. split; [exact P3|]. split; [|exact LD]. rewrite P4. destruct en1, en2, a1; try discriminate ES; reflexivity.
Qed.
