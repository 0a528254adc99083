(** Property C89: what a guess depends on. *)
From Verif Require Import Base M_lib M_all_refs M_technique M_trace Spec Spec_encoder Clients Clients_local L_search L_P_local.
Local Open Scope N_scope. Local Open Scope model_scope.

(** C89: the last 32768 bytes before the data are not quite enough: what lies before them decides the first guess. *)
Theorem C89_past_refuted : exists config old recent data limit refs refs',
  bytes_ok (old ++ recent ++ data) /\ N.of_nat (List.length recent) = 32768 /\ Config_gzip 1 = Ok config
  /\ with_sixteen (old ++ recent) data limit = Ok refs /\ with_sixteen recent data limit = Ok refs'
  /\ sc_codes (mkTechnique config refs) (scanner (mkTechnique config refs)) = Ok [Reference (mkRef 32768 0)]
  /\ sc_codes (mkTechnique config refs') (scanner (mkTechnique config refs')) = Ok [Literal 1].
Proof. exact C89_lemma_refuted. Qed.
Print Assumptions C89_past_refuted.

(** C89: one byte more is enough, for every guess and so for every trace. *)
Theorem C89_past_guess_partial : forall config old recent data limit refs refs' runs pos,
  with_sixteen (old ++ recent) data limit = Ok refs -> with_sixteen recent data limit = Ok refs' ->
  32768 < N.of_nat pos -> (pos < List.length (recent ++ data))%nat ->
  sc_codes (mkTechnique config refs) (mkScanner (moved (List.length old) runs) (List.length old + pos))
  = sc_codes (mkTechnique config refs') (mkScanner runs pos).
Proof. exact C89_lemma_past. Qed.
Print Assumptions C89_past_guess_partial.
Theorem C89_past_trace_partial : forall config old recent data limit refs refs' codes, bytes_ok recent -> bytes_ok data ->
  with_sixteen (old ++ recent) data limit = Ok refs -> with_sixteen recent data limit = Ok refs' ->
  32768 < N.of_nat (List.length recent) ->
  trace codes (mkTechnique config refs) = trace codes (mkTechnique config refs').
Proof. exact C89_lemma_past_trace. Qed.
Print Assumptions C89_past_trace_partial.

(** C89: and with exactly 32768 bytes only the first hint of a strategy without lookahead can differ. *)
Theorem C89_past_rest_partial : forall config old recent data limit refs refs' codes hints hints', bytes_ok old -> bytes_ok recent -> bytes_ok data ->
  with_sixteen (old ++ recent) data limit = Ok refs -> with_sixteen recent data limit = Ok refs' ->
  32768 <= N.of_nat (List.length recent) -> cfg_lookahead config = LGreedy ->
  trace codes (mkTechnique config refs) = Ok hints -> trace codes (mkTechnique config refs') = Ok hints' ->
  tl hints = tl hints'.
Proof. exact C89_lemma_past_rest. Qed.
Print Assumptions C89_past_rest_partial.

(** C89: bytes further on than a match reaches change no guess, and no hint for the codes that end before that. *)
Theorem C89_future_guess : forall config preroll data more more' limit refs refs' runs pos,
  with_sixteen preroll (data ++ more) limit = Ok refs -> with_sixteen preroll (data ++ more') limit = Ok refs' ->
  (pos + reach (cfg_lookahead config) <= List.length (preroll ++ data))%nat ->
  sc_codes (mkTechnique config refs) (mkScanner runs pos) = sc_codes (mkTechnique config refs') (mkScanner runs pos).
Proof. exact C89_lemma_future. Qed.
Print Assumptions C89_future_guess.
Theorem C89_future_trace : forall config preroll data more more' limit refs refs' codes rest rest' hints hints',
  bytes_ok preroll -> bytes_ok (data ++ more') ->
  with_sixteen preroll (data ++ more) limit = Ok refs -> with_sixteen preroll (data ++ more') limit = Ok refs' ->
  (codes_len codes + reach (cfg_lookahead config) <= List.length data)%nat ->
  trace (codes ++ rest) (mkTechnique config refs) = Ok hints -> trace (codes ++ rest') (mkTechnique config refs') = Ok hints' ->
  firstn (List.length codes) hints = firstn (List.length codes) hints'.
Proof. exact C89_lemma_future_trace. Qed.
Print Assumptions C89_future_trace.

(** 32769 bytes of history behind another one. *)
Example C89_past_case : exists config recent refs refs', Config_gzip 9 = Ok config /\ 32768 < N.of_nat (List.length recent)
  /\ bytes_ok recent /\ bytes_ok [1; 2; 3]
  /\ with_sixteen ([9] ++ recent) [1; 2; 3] 65535 = Ok refs /\ with_sixteen recent [1; 2; 3] 65535 = Ok refs'
  /\ trace [Reference (mkRef 32769 0)] (mkTechnique config refs) = trace [Reference (mkRef 32769 0)] (mkTechnique config refs').
Proof.
  assert (B : bytes_ok ([1; 2; 3] ++ repeat 0 (N.to_nat 32766))).
  { apply Forall_app. split; [repeat constructor|]. generalize (N.to_nat 32766). induction n; constructor; auto. reflexivity. }
  assert (L : 32768 < N.of_nat (List.length ([1; 2; 3] ++ repeat 0 (N.to_nat 32766)))) by (rewrite app_length, repeat_length; cbn [List.length]; lia).
  revert B L. generalize ([1; 2; 3] ++ repeat 0 (N.to_nat 32766)). intros recent B L.
  destruct (with_sixteen_ok ([9] ++ recent) [1; 2; 3] 65535) as (a1 & E1 & _). destruct (with_sixteen_ok recent [1; 2; 3] 65535) as (a2 & E2 & _).
  assert (B3 : bytes_ok [1; 2; 3]) by repeat constructor.
  eexists _, recent, a1, a2. split; [reflexivity|]. split; [assumption|]. split; [assumption|]. split; [assumption|]. split; [assumption|]. split; [assumption|].
  exact (C89_past_trace_partial _ [9] recent [1; 2; 3] 65535 a1 a2 _ B B3 E1 E2 L).
Qed.

(** At position 2 of a stretch of zeros the greedy strategy sees 258 bytes, and the 258th matters. *)
Definition guess_after (level : N) (data : list N) (pos : nat) : outcome (list Code) :=
  config <-? Config_gzip level ;; refs <-? with_sixteen [] data 65535 ;; sc_codes (mkTechnique config refs) (mkScanner [] pos).
Definition traced (level : N) (data : list N) (codes : list Code) : outcome (list Trace) :=
  config <-? Config_gzip level ;; refs <-? with_sixteen [] data 65535 ;; trace codes (mkTechnique config refs).
Example C89_future_case : let z n := repeat 0 n in
  guess_after 3 (z 260%nat ++ [0; 7]) 2 = guess_after 3 (z 260%nat ++ [8; 8; 8; 9]) 2
  /\ guess_after 3 (z 260%nat ++ []) 2 = Ok [Reference (mkRef 1 255)]
  /\ guess_after 3 (z 259%nat ++ [5]) 2 = Ok [Reference (mkRef 1 254)]
  /\ traced 3 (z 261%nat ++ [5]) ([Literal 0; Literal 0; Literal 0] ++ [Reference (mkRef 1 255); Literal 5])
     = Ok [Correct; Correct; ActuallyLiteral; Correct; Correct]
  /\ traced 3 (z 261%nat ++ [0]) ([Literal 0; Literal 0; Literal 0] ++ [Literal 0; Reference (mkRef 2 254); Literal 0])
     = Ok [Correct; Correct; ActuallyLiteral; ActuallyLiteral; Actually (mkRef 2 254); Correct].
Proof. repeat split; vm_compute; reflexivity. Qed.
