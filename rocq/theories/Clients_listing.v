(** What the listing of the tracing example contains (C77).  Nothing here models code of the repository. *)
From Verif Require Import Base M_lib M_all_refs M_technique M_trace M_example Spec Spec_encoder Clients Clients_restore.
Local Open Scope N_scope.

(** The hint that replaces a wrong guess. *)
Definition actual (c : Code) : Trace := match c with Literal _ => ActuallyLiteral | Reference r => Actually r end.

(** One line for every code that is not what the encoder goes on with, in order: the position of the code, the block's
    bytes from five before that number to five after it, what the encoder would have gone on with, and the right code. *)
Inductive miss_lines (w : list N) (level : N) (data : list N) : list (nat * N) -> nat -> list Code -> list Trace -> list example_line -> Prop :=
| ml_nil : forall runs pos, miss_lines w level data runs pos [] [] []
| ml_right : forall runs pos c codes hints lines, level_choice w level runs pos [c] ->
    miss_lines w level data (runs ++ long_runs (level_limit level) pos [c]) (pos + code_bytes c) codes hints lines ->
    miss_lines w level data runs pos (c :: codes) (Correct :: hints) lines
| ml_wrong : forall runs pos c guess codes hints lines, level_choice w level runs pos [guess] -> guess <> c ->
    miss_lines w level data (runs ++ long_runs (level_limit level) pos [c]) (pos + code_bytes c) codes hints lines ->
    miss_lines w level data runs pos (c :: codes) (actual c :: hints)
      (XHint pos (firstn (pos + 5 - (pos - 5)) (skipn (pos - 5) data)) [guess] (actual c) :: lines).

(** A section for one gzip level: its name and the size of the serialised hints, the lines above for them, and the
    state of the guesser after the block's codes.  Positions count the preroll. *)
Definition section_lines (name : string) (level : N) (preroll data : list N) (codes : list Code) (lines : list example_line) : Prop :=
  exists config refs hints bytes misses, Config_gzip level = Ok config
    /\ with_sixteen preroll data (match level_limit level with Some l => l | None => 65535 end) = Ok refs
    /\ miss_lines (preroll ++ data) level data [] (List.length preroll) codes hints misses
    /\ st_write hints = Ok bytes
    /\ lines = XSize name (List.length bytes) :: misses
         ++ [XGuesser (mkTechnique config refs)
               (mkScanner (long_runs (level_limit level) (List.length preroll) codes) (List.length (preroll ++ data)));
             XBlank].
Definition fast_section := section_lines "gzip --fast" 1.
Definition default_section := section_lines "gzip [--default]" 6.

(** The listing of blocks numbered from [id], after [hist]: for a stored block its length, for a compressed block
    its kind and the sections for levels 1 and 6. *)
Inductive listing : nat -> list N -> list Block -> list example_line -> Prop :=
| li_nil : forall id hist, listing id hist [] []
| li_stored : forall id hist data blocks lines, listing (S id) (hist ++ data) blocks lines ->
    listing id hist (Uncompressed data :: blocks) (XBlock id :: XStored (List.length data) :: lines)
| li_compressed : forall id hist data b kind blocks one six lines,
    (exists codes, b = FixedHuffman codes /\ kind = XFixed) \/ (exists trees codes, b = DynamicHuffman trees codes /\ kind = XDynamic trees) ->
    lz_decode 32768 hist (block_codes b) = Some (hist ++ data) ->
    fast_section (lastn (N.to_nat 32768) hist) data (block_codes b) one ->
    default_section (lastn (N.to_nat 32768) hist) data (block_codes b) six ->
    listing (S id) (hist ++ data) blocks lines ->
    listing id hist (b :: blocks) ((XBlock id :: kind :: one ++ six) ++ lines).

(** ** Where the example stops (C83) *)

(** What it prints of a section in which it panics: nothing, if a literal guessed wrong is not what the data has at its
    position counted with the preroll; else the size, and the lines up to the first code more than five bytes beyond
    the length of the data, again counting the preroll. *)
Inductive cut_section (name : string) (level : N) (preroll data : list N) (codes : list Code) : list example_line -> Prop :=
| cs_hints : ~ found_at_level level preroll data codes -> cut_section name level preroll data codes []
| cs_place : forall hints bytes before c after misses misses', found_at_level level preroll data codes ->
    miss_lines (preroll ++ data) level data [] (List.length preroll) codes hints misses' ->
    st_write hints = Ok bytes ->
    codes = before ++ c :: after ->
    (List.length data + 5 < List.length preroll + codes_bytes before)%nat ->
    (forall b1 c1 b2, before = b1 ++ c1 :: b2 -> (List.length preroll + codes_bytes b1 <= List.length data + 5)%nat) ->
    miss_lines (preroll ++ data) level data [] (List.length preroll) before (firstn (List.length before) hints) misses ->
    cut_section name level preroll data codes (XSize name (List.length bytes) :: misses).

(** The listing up to the panic. *)
Inductive cut_listing : nat -> list N -> list Block -> list example_line -> Prop :=
| cl_stored : forall id hist data blocks lines, cut_listing (S id) (hist ++ data) blocks lines ->
    cut_listing id hist (Uncompressed data :: blocks) (XBlock id :: XStored (List.length data) :: lines)
| cl_compressed : forall id hist data b kind blocks one six lines,
    (exists codes, b = FixedHuffman codes /\ kind = XFixed) \/ (exists trees codes, b = DynamicHuffman trees codes /\ kind = XDynamic trees) ->
    lz_decode 32768 hist (block_codes b) = Some (hist ++ data) ->
    fast_section (lastn (N.to_nat 32768) hist) data (block_codes b) one ->
    default_section (lastn (N.to_nat 32768) hist) data (block_codes b) six ->
    cut_listing (S id) (hist ++ data) blocks lines ->
    cut_listing id hist (b :: blocks) ((XBlock id :: kind :: one ++ six) ++ lines)
| cl_fast : forall id hist data b kind blocks lines,
    (exists codes, b = FixedHuffman codes /\ kind = XFixed) \/ (exists trees codes, b = DynamicHuffman trees codes /\ kind = XDynamic trees) ->
    lz_decode 32768 hist (block_codes b) = Some (hist ++ data) ->
    cut_section "gzip --fast" 1 (lastn (N.to_nat 32768) hist) data (block_codes b) lines ->
    cut_listing id hist (b :: blocks) (XBlock id :: kind :: lines)
| cl_default : forall id hist data b kind blocks one lines,
    (exists codes, b = FixedHuffman codes /\ kind = XFixed) \/ (exists trees codes, b = DynamicHuffman trees codes /\ kind = XDynamic trees) ->
    lz_decode 32768 hist (block_codes b) = Some (hist ++ data) ->
    fast_section (lastn (N.to_nat 32768) hist) data (block_codes b) one ->
    cut_section "gzip [--default]" 6 (lastn (N.to_nat 32768) hist) data (block_codes b) lines ->
    cut_listing id hist (b :: blocks) (XBlock id :: kind :: one ++ lines).

(** The listing up to a block with a distance before the start of the output. *)
Definition bad_listing (id : nat) (hist : list N) (blocks : list Block) (lines : list example_line) : Prop :=
  exists before b after kind first h, blocks = before ++ b :: after
    /\ listing id hist before first
    /\ lz_decode 32768 hist (flat_map block_codes before) = Some h
    /\ lz_decode 32768 h (block_codes b) = None
    /\ ((exists codes, b = FixedHuffman codes /\ kind = XFixed) \/ (exists trees codes, b = DynamicHuffman trees codes /\ kind = XDynamic trees))
    /\ lines = first ++ [XBlock (id + List.length before); kind].
