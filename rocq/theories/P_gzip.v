(** Properties C30, C31: the gzip member header (lib/src/gzip.rs). *)
From Verif Require Import Base M_gzip Spec Clients L_P_gzip.
Local Open Scope N_scope.

(** C30: the returned bytes and the unread rest make up the input, and what follows the header does not
    matter. *)
Theorem C30_header_verbatim : forall bytes e h s, discard_header (mkSource bytes e) = (Ok h, s) ->
  exists tail, s = mkSource tail e /\ bytes = h ++ tail
    /\ forall other e', discard_header (mkSource (h ++ other) e') = (Ok h, mkSource other e').
Proof. exact C30_lemma. Qed.
Print Assumptions C30_header_verbatim.

(** A header with all optional fields. *)
Definition full_header : list N :=
  [31; 139; 8; 30; 1; 2; 3; 4; 0; 3;  3; 0; 9; 9; 9;  97; 46; 0;  104; 105; 0;  1; 2].

Example C30_case : discard_header (mkSource (full_header ++ [5; 6]) OtherIo) = (Ok full_header, mkSource [5; 6] OtherIo).
Proof. vm_compute. reflexivity. Qed.

(** C31: accepted exactly when the input starts with an RFC 1952 header, which is what is returned. *)
Theorem C31_accepts_rfc1952 : forall bytes e h tail, bytes_ok bytes ->
  discard_header (mkSource bytes e) = (Ok h, mkSource tail e) <-> bytes = h ++ tail /\ gzip_header h.
Proof. exact C31_lemma. Qed.
Print Assumptions C31_accepts_rfc1952.

(** C31: no input makes it panic or run forever. *)
Theorem C31_total : forall bytes e, returns (fst (discard_header (mkSource bytes e))).
Proof. exact C31_lemma_total. Qed.
Print Assumptions C31_total.

(** C31: every truncation of a header gives the reader's end-of-input error. *)
Theorem C31_truncation : forall h cut e, bytes_ok h -> gzip_header h -> (cut < List.length h)%nat ->
  discard_header (mkSource (firstn cut h) e) = (Err (EIo e), mkSource [] e).
Proof. exact C31_lemma_cut. Qed.
Print Assumptions C31_truncation.

Example C31_case : bytes_ok full_header /\ gzip_header full_header /\ (12 < List.length full_header)%nat
  /\ ~ gzip_header [31; 139; 8; 32; 1; 2; 3; 4; 0; 3].
Proof.
  assert (B : bytes_ok full_header) by (repeat constructor).
  split; [exact B|]. split; [|split].
  - exists 30, [1; 2; 3; 4; 0; 3], [3; 0; 9; 9; 9], [97; 46; 0], [104; 105; 0], [1; 2].
    split; [reflexivity|]. split; [reflexivity|]. split; [reflexivity|]. split; [reflexivity|]. split; [reflexivity|].
    split; [exists 3, 0, [9; 9; 9]; split; reflexivity|].
    split; [exists [97; 46]; split; [reflexivity|intros [E|[E|[]]]; discriminate]|].
    split; [exists [104; 105]; split; [reflexivity|intros [E|[E|[]]]; discriminate]|]. reflexivity.
  - cbn. lia.
  - intros (flg & f & ex & na & co & hc & E & _ & T & _). injection E as <- _. discriminate.
Qed.
