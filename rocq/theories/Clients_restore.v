(** When a trace can be restored (C40, C46, C52).  Nothing here models code of the repository. *)
From Verif Require Import Base M_lib M_all_refs M_technique M_trace Spec Spec_encoder Clients Clients_exact.
Local Open Scope N_scope.

(** How many bytes codes decompress to. *)
Definition code_bytes (c : Code) : nat := match c with Literal _ => 1 | Reference r => N.to_nat (ref_len r) end.
Definition codes_bytes (codes : list Code) : nat := fold_right Nat.add 0%nat (map code_bytes codes).

(** Every literal whose hint says "really a literal" is what the data has at the literal's position, where the
    position counts the preroll although the data does not include it. *)
Definition literals_found (preroll data : list N) (hints : list Trace) (codes : list Code) : Prop :=
  forall i b, nth_error hints i = Some ActuallyLiteral -> nth_error codes i = Some (Literal b) ->
    nth_error data (List.length preroll + codes_bytes (firstn i codes)) = Some b.

(** The codes with each such literal replaced by what the data has there; none if the data is too short. *)
Fixpoint looked_up (data : list N) (pos : nat) (hints : list Trace) (codes : list Code) : option (list Code) :=
  match hints, codes with
  | ActuallyLiteral :: hints', c :: codes' =>
      match nth_error data pos, looked_up data (pos + code_bytes c) hints' codes' with
      | Some b, Some more => Some (Literal b :: more)
      | _, _ => None
      end
  | _ :: hints', c :: codes' => option_map (cons c) (looked_up data (pos + code_bytes c) hints' codes')
  | _, _ => Some []
  end.

(** The literals are found for the hints at a gzip level. *)
Definition found_at_level (level : N) (preroll data : list N) (codes : list Code) : Prop :=
  forall hints, traced (preroll ++ data) (level_limit level) (level_choice (preroll ++ data) level) [] (List.length preroll) codes hints ->
    literals_found preroll data hints codes.

(** Streams that decode, and in every compressed block of which those literals are found, given the last 32768
    bytes before the block as the preroll. *)
Inductive restorable (level : N) : list N -> list Block -> Prop :=
| res_nil : forall hist, restorable level hist []
| res_cons : forall hist data b blocks,
    lz_decode 32768 hist (block_codes b) = Some (hist ++ data) ->
    ((exists d, b = Uncompressed d) \/ found_at_level level (lastn (N.to_nat 32768) hist) data (block_codes b)) ->
    restorable level (hist ++ data) blocks ->
    restorable level hist (b :: blocks).

(** What the tracing example can print: besides, at levels 1 and 6, the last code of a compressed block has to
    reach to within five bytes of the length of the block's preroll. *)
Inductive printable : list N -> list Block -> Prop :=
| pri_nil : forall hist, printable hist []
| pri_cons : forall hist data b blocks,
    lz_decode 32768 hist (block_codes b) = Some (hist ++ data) ->
    ((exists d, b = Uncompressed d)
     \/ block_codes b = []
     \/ found_at_level 1 (lastn (N.to_nat 32768) hist) data (block_codes b)
        /\ found_at_level 6 (lastn (N.to_nat 32768) hist) data (block_codes b)
        /\ (List.length (lastn (N.to_nat 32768) hist) <= 5 + code_bytes (last (block_codes b) (Literal 0)))%nat) ->
    printable (hist ++ data) blocks ->
    printable hist (b :: blocks).
