(** What C78 and C79 talk about.  Nothing here models code of the repository. *)
From Verif Require Import Base M_lib M_rezippers Spec Clients.
Local Open Scope N_scope.

(** A decompressor that yields the content of every valid DEFLATE stream that decodes, whatever follows it. *)
Definition decompressor_right (inflate : source -> byte_iter) : Prop :=
  forall stream tail e blocks content, bytes_ok (stream ++ tail) ->
    stream_bits 0 blocks (bits_of_bytes stream) -> encodes [] content (flat_map block_codes blocks) ->
    inflate (mkSource (stream ++ tail) e) = map inl content.

(** A gzip file with this header and content. *)
Definition gzip_of (header content file : list N) : Prop :=
  exists stream trailer blocks, file = header ++ stream ++ trailer /\ gzip_header header
    /\ stream_bits 0 blocks (bits_of_bytes stream) /\ encodes [] content (flat_map block_codes blocks).

(** The chunks that [zero] divides a content into. *)
Definition chunks_of (content : list N) (chunks : list (list N)) : Prop :=
  take_all (S (List.length content)) (map inl content) = Ok chunks.

(** One stored block per chunk, the last one marked final; lengths are taken modulo 65536. *)
Definition stored_block (final : bool) (chunk : list N) : list N :=
  let n := N.of_nat (List.length chunk) mod 65536 in
  [if final then 1 else 0] ++ le16_bytes n ++ le16_bytes (65535 - n) ++ chunk.
Fixpoint stored_blocks (chunks : list (list N)) : list N :=
  match chunks with
  | [] => []
  | [last] => stored_block true last
  | chunk :: chunks' => stored_block false chunk ++ stored_blocks chunks'
  end.

(** What an input that breaks off after [data] was divided into: whole chunks, each ending where it had to, and a rest in
    which no chunk ends. *)
Definition unfinished (data : list N) (chunks : list (list N)) (rest : list N) : Prop :=
  data = flat_map (fun c => c) chunks ++ rest
  /\ Forall (fun c => 8192 <= N.of_nat (List.length c) <= 65536 /\ rsync_unbroken c /\ (N.of_nat (List.length c) = 65536 \/ rsync_stop c)) chunks
  /\ N.of_nat (List.length rest) < 65536 /\ rsync_unbroken rest /\ (8192 <= N.of_nat (List.length rest) -> ~ rsync_stop rest).
