(** Model of lib/src/gzip.rs *)
From Verif Require Import Base.
Local Open Scope N_scope.
Local Open Scope model_scope.

(** gzip.rs:54-56 *)
Definition has_bit (val bit : N) : bool :=
  N.land val (N.shiftl 1 bit) =? N.shiftl 1 bit.

(** gzip.rs:58-67; each iteration consumes a byte, [fuel] bounds the iterations. *)
Fixpoint read_null_terminated_loop (fuel : nat) (into : list N) : M source (list N) :=
  match fuel with
  | O => lift Diverge
  | S fuel' =>
      buf <- read_exact 1 ;;
      let b := nth 0 buf 0 in
      let into := into ++ [b] in
      if 0 =? b then ret into else read_null_terminated_loop fuel' into
  end.
Definition read_null_terminated (into : list N) : M source (list N) :=
  fun s => read_null_terminated_loop (S (List.length (rest s))) into s.

(** gzip.rs:22-31: the FEXTRA field *)
Definition read_extra (whole : list N) : M source (list N) :=
  buf <- read_exact 2 ;;
  let len := N.lor (N.shiftl (nth 1 buf 0) 8) (nth 0 buf 0) in
  extra <- read_exact (N.to_nat len) ;;
  ret (whole ++ buf ++ extra).

(** gzip.rs:43-48: the header CRC *)
Definition read_hcrc (whole : list N) : M source (list N) :=
  buf <- read_exact 2 ;; ret (whole ++ buf).

(** gzip.rs:6-51 *)
Definition discard_header : M source (list N) :=
  header <- read_exact 10 ;;
  let whole := header in
  ensure ((31 =? nth 0 header 0) && (139 =? nth 1 header 0)) "invalid magic" ;;;
  ensure (8 =? nth 2 header 0) "unsupported compression method" ;;;
  let flags := nth 3 header 0 in
  ensure (0 =? N.land flags 224) "reserved flags bits set" ;;;
  whole <- (if has_bit flags 2 then read_extra whole else ret whole) ;;
  whole <- (if has_bit flags 3 then read_null_terminated whole else ret whole) ;;
  whole <- (if has_bit flags 4 then read_null_terminated whole else ret whole) ;;
  (if has_bit flags 1 then read_hcrc whole else ret whole).
