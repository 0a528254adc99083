(** What C88 talks about: what the commands find in any file.  Nothing here models code of the repository. *)
From Verif Require Import Base M_bit M_lib Spec Clients_wrong.
Local Open Scope N_scope.

(** The first ten bytes of a file that is not a gzip file (RFC 1952 section 2.3.1), and the complaint about them. *)
Inductive wrong_start : string -> list N -> Prop :=
| WT_magic id1 id2 more : List.length more = 8%nat -> ~ (id1 = 31 /\ id2 = 139) -> wrong_start "invalid magic" ([id1; id2] ++ more)
| WT_method cm more : List.length more = 7%nat -> cm <> 8 -> wrong_start "unsupported compression method" ([31; 139; cm] ++ more)
| WT_flags flg more : List.length more = 6%nat -> 32 <= flg -> wrong_start "reserved flags bits set" ([31; 139; 8; flg] ++ more).

(** Blocks that are not the last one. *)
Inductive leading : nat -> list Block -> list bool -> Prop :=
| LD_none off : leading off [] []
| LD_block off b bs w ws : block_bits (off + 1) b w -> leading (off + 1 + List.length w) bs ws -> leading off (b :: bs) (false :: w ++ ws).

(** Bits in which neither a block nor anything wrong can be made out: there are too few of them. *)
Definition too_short (off : nat) (t : list bool) : Prop :=
  forall last w t', t = last :: w ++ t' -> (forall b, ~ block_bits (off + 1) b w) /\ (forall msg, ~ wrong_block (off + 1) msg w).

Inductive ending := Complete | Complains (msg : string) | RunsOut.

(** [file_ends file blocks en]: in [file], [blocks] can be read, and then [en]. *)
Inductive file_ends : list N -> list Block -> ending -> Prop :=
| FE_complete header stream tail blocks :
    gzip_header header -> stream_bits 0 blocks (bits_of_bytes stream) -> file_ends (header ++ stream ++ tail) blocks Complete
| FE_start start tail msg : wrong_start msg start -> file_ends (start ++ tail) [] (Complains msg)
| FE_wrong header body blocks msg w t :
    gzip_header header -> bits_of_bytes body = w ++ t -> wrong_stream 0 blocks msg w -> file_ends (header ++ body) blocks (Complains msg)
| FE_ten file : (List.length file < 10)%nat -> file_ends file [] RunsOut
| FE_header_short file more : gzip_header (file ++ more) -> bytes_ok more -> more <> [] -> file_ends file [] RunsOut
| FE_short header body blocks w t :
    gzip_header header -> bits_of_bytes body = w ++ t -> leading 0 blocks w -> too_short (List.length w) t -> file_ends (header ++ body) blocks RunsOut.

(** The result of a command that reads all of it; [e] is the error behind the last byte (end of file, or a device error). *)
Definition result_of (e : errkind) (en : ending) : outcome unit :=
  match en with Complete => Ok tt | Complains msg => Err (EMsg msg) | RunsOut => Err (EIo e) end.

(** What can be decoded of some codes: the data, and whether a reference that leaves the window stopped it. *)
Inductive decodes (codes : list Code) : list N -> bool -> Prop :=
| DC_all data : encodes [] data codes -> decodes codes data true
| DC_far good r more data : codes = good ++ Reference r :: more -> encodes [] data good ->
    ~ (1 <= r_dist r <= N.min 32768 (N.of_nat (List.length data))) -> decodes codes data false.

(** Output of which only the first [room] bytes are taken. *)
Definition taken (room : option nat) (data : list N) : list N := match room with None => data | Some k => firstn k data end.
Definition fits (room : option nat) (data : list N) : bool := match room with None => true | Some k => Nat.leb (List.length data) k end.
