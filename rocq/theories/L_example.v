(** The tracing example, seen as functions that return the lines of a run that does not fail. *)
From Verif Require Import Base M_bit M_lib M_circles M_gzip M_parse M_serialise M_all_refs M_technique M_trace M_example.
Local Open Scope N_scope.
Local Open Scope model_scope.

Fixpoint listed_hints (t : Technique) (decompressed : list N) (s : Scanner) (traces : list Trace) (codes : list Code)
  : outcome (list example_line) :=
  match traces, codes with
  | h :: traces', c :: codes' =>
      location_hint <-? slice decompressed (sc_pos s - 5) (Nat.min (sc_pos s + 5) (List.length decompressed)) ;;
      line <-? match h with
               | Correct => Ok []
               | _ => guess <-? sc_codes t s ;; Ok [XHint (sc_pos s) location_hint guess h]
               end ;;
      more <-? listed_hints t decompressed (feedback t s c) traces' codes' ;;
      Ok (line ++ more)
  | _, _ => Ok []
  end.

Fixpoint after_hints (t : Technique) (s : Scanner) (traces : list Trace) (codes : list Code) : Scanner :=
  match traces, codes with
  | _ :: traces', c :: codes' => after_hints t (feedback t s c) traces' codes'
  | _, _ => s
  end.

Definition listed_try_trace (all_refs : AllRefs) (name : string) (config : Config) (codes : list Code) (decompressed : list N)
  : outcome (list example_line) :=
  let technique := mkTechnique config all_refs in
  trace <-? validate codes technique ;;
  serialised <-? st_verify trace ;;
  more <-? listed_hints technique decompressed (scanner technique) trace codes ;;
  Ok (XSize name (List.length serialised) :: more ++ [XGuesser technique (after_hints technique (scanner technique) trace codes); XBlank]).

Definition listed_print (codes : list Code) : M circ (list example_line) :=
  fun dictionary =>
    match cb_vec true dictionary with
    | Ok old_dictionary =>
        match decompressed_codes codes (dictionary, new_sink) with
        | (Ok _, (dictionary, out)) =>
            let decompressed := written out in
            ((refs_1 <-? with_sixteen old_dictionary decompressed 4 ;;
              _ <-? with_sixteen old_dictionary decompressed 6 ;;
              all_refs <-? with_sixteen old_dictionary decompressed 65535 ;;
              fast <-? Config_gzip 1 ;;
              one <-? listed_try_trace refs_1 "gzip --fast" fast codes decompressed ;;
              default <-? Config_gzip_16_default ;;
              six <-? listed_try_trace all_refs "gzip [--default]" default codes decompressed ;;
              Ok (one ++ six)), dictionary)
        | (Err e, (dictionary, _)) => (Err e, dictionary)
        | (Panic m, (dictionary, _)) => (Panic m, dictionary)
        | (Diverge, (dictionary, _)) => (Diverge, dictionary)
        end
    | Err e => (Err e, dictionary)
    | Panic m => (Panic m, dictionary)
    | Diverge => (Diverge, dictionary)
    end.

Definition listed_block (id : nat) (block : Block) : M circ (list example_line) :=
  lines <- match block with
           | Uncompressed data =>
               fun d => match cb_extend d data with
                        | Ok d' => (Ok [XStored (List.length data)], d')
                        | Err e => (Err e, d)
                        | Panic m => (Panic m, d)
                        | Diverge => (Diverge, d)
                        end
           | FixedHuffman codes => more <- listed_print codes ;; ret (XFixed :: more)
           | DynamicHuffman trees codes => more <- listed_print codes ;; ret (XDynamic trees :: more)
           end ;;
  ret (XBlock id :: lines).

Fixpoint listed_loop (fuel : nat) (id : nat) (it : block_iter) : M circ (list example_line) :=
  match fuel with
  | O => lift Diverge
  | S fuel' =>
      match bi_next it with
      | (Ok None, _) => ret []
      | (Ok (Some block), it') =>
          lines <- listed_block id block ;;
          more <- listed_loop fuel' (S id) it' ;;
          ret (lines ++ more)
      | (Err e, _) => lift (Err e)
      | (Panic m, _) => panic m
      | (Diverge, _) => lift Diverge
      end
  end.

Definition listed_run (reader : source) : outcome (list example_line) :=
  match discard_header reader with
  | (Ok _, reader') =>
      dictionary <-? cb_new ;;
      fst (listed_loop (8 * List.length (rest reader') + 2) 0 (parse_deflate reader') dictionary)
  | (Err e, _) => Err e
  | (Panic m, _) => Panic m
  | (Diverge, _) => Diverge
  end.

(** ** The two agree *)
Definition agrees {A} (v : outcome (list example_line)) (lines : list example_line) (o : outcome A) : Prop :=
  match v with
  | Ok l => lines = l /\ exists a, o = Ok a
  | Err e => o = Err e
  | Panic m => o = Panic m
  | Diverge => o = Diverge
  end.

Definition shows {A} (m : M (list example_line) A) (v : outcome (list example_line)) : Prop :=
  forall printed, exists lines, snd (m printed) = printed ++ lines /\ agrees v lines (fst (m printed)).

Lemma hints_shows t d : forall traces s codes printed, exists lines, snd (example_hints t d s traces codes printed) = printed ++ lines
  /\ match listed_hints t d s traces codes with
     | Ok l => lines = l /\ fst (example_hints t d s traces codes printed) = Ok (after_hints t s traces codes)
     | v => agrees v lines (fst (example_hints t d s traces codes printed))
     end.
Proof.
  induction traces as [|h traces IH]; intros s codes printed; cbn [listed_hints example_hints after_hints].
  { exists []. cbn. rewrite app_nil_r. auto. }
  destruct codes as [|c codes]. { exists []. cbn. rewrite app_nil_r. auto. }
  match goal with |- context [bind ?m ?k printed] => set (X := bind m k printed) end.
  destruct (slice d (sc_pos s - 5) (Nat.min (sc_pos s + 5) (List.length d))) as [loc| | |] eqn:ES; cbn [obind]; try (exists []; unfold X; cbn; now rewrite app_nil_r).
  assert (EX : X = match (match h with Correct => Ok [] | _ => guess <-? sc_codes t s ;; Ok [XHint (sc_pos s) loc guess h] end) with
                   | Ok l => example_hints t d (feedback t s c) traces codes (printed ++ l)
                   | Err e => (Err e, printed) | Panic m => (Panic m, printed) | Diverge => (Diverge, printed)
                   end).
  { unfold X, lift, bind. destruct h; [cbn; now rewrite app_nil_r|destruct (sc_codes t s); reflexivity..]. }
  clearbody X. subst X.
  destruct (match h with Correct => Ok [] | _ => _ end) as [l| | |]; cbn [obind]; try (exists []; cbn; now rewrite app_nil_r).
  destruct (IH (feedback t s c) codes (printed ++ l)) as (lines & EL & EA). exists (l ++ lines). split; [now rewrite EL, app_assoc|].
  destruct (listed_hints t d (feedback t s c) traces codes); cbn [obind]; auto. destruct EA as [-> E]. auto.
Qed.

Lemma lift_bind {S A B} (o : outcome A) (k : A -> M S B) s :
  bind (lift o) k s = match o with Ok a => k a s | Err e => (Err e, s) | Panic m => (Panic m, s) | Diverge => (Diverge, s) end.
Proof. now destruct o. Qed.
Lemma println_bind {B} l (k : unit -> M (list example_line) B) s : bind (example_println l) k s = k tt (s ++ [l]).
Proof. reflexivity. Qed.

Lemma try_trace_shows refs name config codes d :
  shows (example_try_trace refs name config codes d) (listed_try_trace refs name config codes d).
Proof.
  intro printed. unfold example_try_trace, listed_try_trace. rewrite lift_bind.
  destruct (validate codes (mkTechnique config refs)) as [tr| | |]; cbn [obind]; try (exists []; cbn; now rewrite app_nil_r).
  rewrite lift_bind. destruct (st_verify tr) as [bs| | |]; cbn [obind]; try (exists []; cbn; now rewrite app_nil_r).
  rewrite println_bind.
  destruct (hints_shows (mkTechnique config refs) d tr (scanner (mkTechnique config refs)) codes (printed ++ [XSize name (List.length bs)])) as (lines & ES & EA).
  unfold bind. destruct (example_hints _ d _ tr codes _) as [o p]. cbn [fst snd] in *. subst p.
  destruct (listed_hints _ d _ tr codes) as [l| | |]; cbn [obind agrees] in *.
  - destruct EA as [-> ->]. cbn. eexists. split; [|split; [reflexivity|eauto]]. rewrite <- !app_assoc. reflexivity.
  - subst o. eexists. split; [cbn; rewrite <- app_assoc; reflexivity|reflexivity].
  - subst o. eexists. split; [cbn; rewrite <- app_assoc; reflexivity|reflexivity].
  - subst o. eexists. split; [cbn; rewrite <- app_assoc; reflexivity|reflexivity].
Qed.

Definition shows2 (m : M (circ * list example_line) unit) (v : M circ (list example_line)) : Prop :=
  forall d printed, exists lines, snd (m (d, printed)) = (snd (v d), printed ++ lines) /\ agrees (fst (v d)) lines (fst (m (d, printed))).

Lemma shows2_bind m1 v1 m2 v2 : shows2 m1 v1 -> shows2 m2 v2 ->
  shows2 (m1 ;;; m2) (l1 <- v1 ;; l2 <- v2 ;; ret (l1 ++ l2)).
Proof.
  intros H1 H2 d printed. unfold bind. destruct (H1 d printed) as (l1 & S1 & A1). destruct (m1 (d, printed)) as [o1 st1], (v1 d) as [w1 d1].
  cbn [fst snd] in *. subst st1. destruct w1 as [l| | |]; cbn [agrees] in A1.
  2-4: subst o1; exists l1; split; reflexivity.
  destruct A1 as [-> [[] ->]]. destruct (H2 d1 (printed ++ l)) as (l2 & S2 & A2). destruct (m2 (d1, printed ++ l)) as [o2 st2], (v2 d1) as [w2 d2].
  cbn [fst snd] in *. subst st2. exists (l ++ l2). destruct w2 as [l'| | |]; cbn [agrees ret fst snd] in *.
  2-4: subst o2; split; [now rewrite app_assoc|reflexivity].
  destruct A2 as [-> [[] ->]]. split; [now rewrite app_assoc|eauto].
Qed.

Lemma shows2_ext m v v' : (forall d, v d = v' d) -> shows2 m v -> shows2 m v'.
Proof. intros E H d printed. rewrite <- E. apply H. Qed.
Lemma shows2_line l : shows2 (on_printed (example_println l)) (ret [l]).
Proof. intros d printed. exists [l]. cbn. split; [reflexivity|eauto]. Qed.
Lemma shows2_ret : shows2 (ret tt) (ret []).
Proof. intros d printed. exists []. cbn. rewrite app_nil_r. split; [reflexivity|eauto]. Qed.
Lemma shows2_part m v : shows m v -> shows2 (on_printed m) (lift v).
Proof.
  intros H d printed. destruct (H printed) as (lines & ES & EA). exists lines. unfold on_printed, zoom, lift. cbn [fst snd].
  destruct (m printed) as [o p]. cbn [fst snd] in *. subst p. split; [reflexivity|]. destruct v; cbn [agrees] in *; auto.
Qed.

Lemma print_shows codes : shows2 (example_print codes) (listed_print codes).
Proof.
  intros d printed. unfold example_print, listed_print. cbn [fst snd]. destruct (cb_vec true d) as [old| | |]; try (exists []; cbn; now rewrite app_nil_r).
  destruct (decompressed_codes codes (d, new_sink)) as [[[]| | |] [d' out]]; try (exists []; cbn; now rewrite app_nil_r).
  unfold lift, bind. destruct (with_sixteen old (written out) 4) as [r1| | |]; cbn [obind]; try (exists []; cbn; now rewrite app_nil_r).
  destruct (with_sixteen old (written out) 6) as [r3| | |]; cbn [obind]; try (exists []; cbn; now rewrite app_nil_r).
  destruct (with_sixteen old (written out) 65535) as [ra| | |]; cbn [obind]; try (exists []; cbn; now rewrite app_nil_r).
  destruct (Config_gzip 1) as [c1| | |]; cbn [obind]; try (exists []; cbn; now rewrite app_nil_r).
  destruct (shows2_part _ _ (try_trace_shows r1 "gzip --fast" c1 codes (written out)) d' printed) as (l1 & S1 & A1).
  destruct (on_printed _ (d', printed)) as [o1 st1]. cbn [fst snd lift] in *. subst st1.
  destruct (listed_try_trace r1 _ _ _ _) as [one| | |]; cbn [agrees obind] in *.
  2-4: subst o1; exists l1; split; reflexivity.
  destruct A1 as [-> [[] ->]]. destruct Config_gzip_16_default as [c6| | |]; cbn [obind fst snd agrees]; try (exists one; split; reflexivity).
  destruct (shows2_part _ _ (try_trace_shows ra "gzip [--default]" c6 codes (written out)) d' (printed ++ one)) as (l2 & S2 & A2).
  destruct (on_printed _ (d', printed ++ one)) as [o2 st2]. cbn [fst snd lift] in *. subst st2.
  exists (one ++ l2). rewrite app_assoc. split; [reflexivity|]. destruct (listed_try_trace ra _ _ _ _) as [six| | |]; cbn [agrees obind] in *; auto.
  destruct A2 as [-> X]. auto.
Qed.

Lemma block_shows id b : shows2 (example_block id b) (listed_block id b).
Proof.
  unfold example_block, listed_block.
  assert (G : forall m v, shows2 m v -> shows2 (on_printed (example_println (XBlock id)) ;;; m) (lines <- v ;; ret (XBlock id :: lines))).
  { intros m v H. eapply shows2_ext; [|apply (shows2_bind _ _ _ _ (shows2_line (XBlock id)) H)].
    intro d. unfold bind. cbn [ret]. destruct (v d) as [[]]; reflexivity. }
  assert (K : forall k codes, shows2 (on_printed (example_println k) ;;; example_print codes) (more <- listed_print codes ;; ret (k :: more))).
  { intros k codes. eapply shows2_ext; [|apply (shows2_bind _ _ _ _ (shows2_line k) (print_shows codes))].
    intro d. unfold bind. cbn [ret]. destruct (listed_print codes d) as [[]]; reflexivity. }
  apply G. destruct b as [data|codes|trees codes]; [|apply K|apply K].
  intros d printed. unfold bind. cbn. destruct (cb_extend d data) as [d'| | |]; cbn; eexists; (split; [reflexivity|]); eauto.
Qed.

Lemma loop_shows fuel : forall id it, shows2 (example_loop fuel id it) (listed_loop fuel id it).
Proof.
  induction fuel as [|fuel IH]; intros id it; cbn [example_loop listed_loop].
  { intros d printed. exists []. cbn. now rewrite app_nil_r. }
  destruct (bi_next it) as [[[b|]| | |] it']; try (intros d printed; exists []; cbn; rewrite app_nil_r; now eauto).
  - apply shows2_bind; [apply block_shows|apply IH].
Qed.

Lemma run_shows r : agrees (listed_run r) (fst (example_run r)) (snd (example_run r)).
Proof.
  unfold listed_run, example_run. destruct (discard_header r) as [[h| | |] r']; cbn [agrees fst snd]; auto.
  destruct cb_new as [d| | |]; cbn [obind agrees fst snd]; auto.
  destruct (loop_shows (8 * List.length (rest r') + 2) 0 (parse_deflate r') d []) as (lines & ES & EA).
  destruct (example_loop _ _ _ _) as [o [d' p]]. cbn [fst snd app] in *. injection ES as _ ->. exact EA.
Qed.

Lemma run_ok r l : listed_run r = Ok l <-> example_run r = (l, Ok tt).
Proof.
  assert (A := run_shows r). destruct (example_run r) as [lines o]. cbn [fst snd] in A. split.
  - intro E. rewrite E in A. destruct A as [-> [[] ->]]. reflexivity.
  - intros [= -> ->]. destruct (listed_run r); cbn [agrees] in A; try discriminate. destruct A as [-> _]. reflexivity.
Qed.
Lemma run_panic r m : listed_run r = Panic m -> snd (example_run r) = Panic m.
Proof. intro E. assert (A := run_shows r). now rewrite E in A. Qed.
