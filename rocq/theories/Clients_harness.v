(** What C90 talks about: blocks whose codes are those a gzip level's greedy encoder chooses.  Nothing here models code of
    the repository. *)
From Verif Require Import Base M_lib Spec Spec_encoder.
Local Open Scope N_scope.

(** [hist] is what the blocks before have decoded to; the encoder sees its last 32768 bytes. *)
Inductive reproduced (level : N) : list N -> list Block -> Prop :=
| rp_end hist : reproduced level hist []
| rp_block hist data b blocks :
    (forall d, b <> Uncompressed d) ->
    lz_decode 32768 hist (block_codes b) = Some (hist ++ data) ->
    (let window := lastn (N.to_nat 32768) hist in gzip_greedy (window ++ data) level (List.length window) (block_codes b)) ->
    reproduced level (hist ++ data) blocks ->
    reproduced level hist (b :: blocks).
