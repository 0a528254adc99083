(** What C75, C76, C88 and C110 talk about.  Nothing here models code of the repository. *)
From Verif Require Import Base M_gzip M_rezippers M_dump M_text M_io M_main Clients_io.
Local Open Scope N_scope.

(** The input of a command: the named file, or standard input without a name. *)
Definition input_of (w : world) (c : command) : outcome reader :=
  match c with
  | Cat (Some path) | Dump (Some path) | Zero (Some path) => w_files w path
  | Cat None | Dump None | Zero None => Ok (w_stdin w)
  end.

(** What a command does with all the input at once and an output that takes everything: its result and its output. *)
Definition does (inflate : source -> byte_iter) (c : command) (input : source) (o : outcome unit) (text : list N) : Prop :=
  match c with
  | Cat _ => exists out, cat_run input new_sink = (o, out) /\ written out = text
  | Zero _ => exists out, zero_run inflate input new_sink = (o, out) /\ written out = text
  | Dump _ => exists lines, dump_run input = (lines, o) /\ dump_text lines = Ok text
  end.

(** The exit status for a result: 0 for success, 1 for an error, 101 for a panic; none without an end. *)
Definition status_of (o : outcome unit) : option N :=
  match o with Ok _ => Some 0 | Err _ => Some 1 | Panic _ => Some 101 | Diverge => None end.

(** The exit status of a command whose output fails: [println!] panics. *)
Definition output_failure (c : command) : option N := match c with Dump _ => Some 101 | _ => Some 1 end.

(** A command that can do its work: its input delivers [bytes], in some pieces, and its output takes everything. *)
Definition ready (w : world) (c : command) (bytes : list N) : Prop :=
  exists events e, input_of w c = Ok (mkRd events e) /\ rd_ok events /\ rd_bytes events = bytes
    /\ wr_written (w_device w) = [] /\ wr_ok (wr_events (w_device w)) /\ wr_fails (w_device w) = false.
