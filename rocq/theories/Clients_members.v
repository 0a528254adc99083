(** Gzip files as RFC 1952 defines them (C82).  Nothing here models code of the repository. *)
From Verif Require Import Base M_lib Spec Clients.
Local Open Scope N_scope.

(** A member: a header, a DEFLATE stream of the content, the content's CRC-32 and its length. *)
Definition member (content file : list N) : Prop :=
  exists header stream blocks, file = header ++ stream ++ le32_bytes (crc32 content) ++ le32_bytes (N.of_nat (List.length content) mod 2 ^ 32)
    /\ gzip_header header /\ stream_bits 0 blocks (bits_of_bytes stream) /\ encodes [] content (flat_map block_codes blocks).

(** A gzip file is one or more members one after the other; its content is theirs. *)
Inductive members : list N -> list N -> Prop :=
| members_one : forall content file, member content file -> members content file
| members_more : forall content file content' file', member content file -> members content' file' ->
    members (content ++ content') (file ++ file').
