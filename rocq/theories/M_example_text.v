(** Model of the text that lib/examples/trace.rs prints, from the lines of [M_example].  Text is its UTF-8 bytes.
    Modelled of the standard library: [String::from_utf8_lossy], [{:?}] of strings, [{:4}] of unsigned integers and
    derived [Debug] implementations ([{:10?}] of a string ignores the width).  Which characters from U+0080 on are
    printed as they are depends on the Unicode version of the standard library: this is a parameter, [plain]. *)
From Verif Require Import Base M_bit M_lib M_all_refs M_technique M_trace M_debug M_dump M_text M_example.
From Coq Require Import Hexadecimal HexadecimalN.
Local Open Scope N_scope.
Local Open Scope model_scope.

Definition in_range (a b x : N) : bool := (a <=? x) && (x <=? b).

(** [String::from_utf8_lossy], as code points; what is not UTF-8 becomes U+FFFD: up to three bytes that start a
    character, else a single byte *)
Fixpoint from_utf8_lossy (bytes : list N) : list N :=
  match bytes with
  | [] => []
  | b0 :: l1 =>
      if b0 <? 128 then b0 :: from_utf8_lossy l1
      else if in_range 194 223 b0 then
        match l1 with
        | b1 :: l2 => if in_range 128 191 b1 then (b0 - 192) * 64 + (b1 - 128) :: from_utf8_lossy l2
                      else 65533 :: from_utf8_lossy l1
        | [] => [65533]
        end
      else if in_range 224 239 b0 then
        match l1 with
        | b1 :: l2 =>
            if in_range (if b0 =? 224 then 160 else 128) (if b0 =? 237 then 159 else 191) b1 then
              match l2 with
              | b2 :: l3 => if in_range 128 191 b2 then (b0 - 224) * 4096 + (b1 - 128) * 64 + (b2 - 128) :: from_utf8_lossy l3
                            else 65533 :: from_utf8_lossy l2
              | [] => [65533]
              end
            else 65533 :: from_utf8_lossy l1
        | [] => [65533]
        end
      else if in_range 240 244 b0 then
        match l1 with
        | b1 :: l2 =>
            if in_range (if b0 =? 240 then 144 else 128) (if b0 =? 244 then 143 else 191) b1 then
              match l2 with
              | b2 :: l3 =>
                  if in_range 128 191 b2 then
                    match l3 with
                    | b3 :: l4 => if in_range 128 191 b3
                                  then (b0 - 240) * 262144 + (b1 - 128) * 4096 + (b2 - 128) * 64 + (b3 - 128) :: from_utf8_lossy l4
                                  else 65533 :: from_utf8_lossy l3
                    | [] => [65533]
                    end
                  else 65533 :: from_utf8_lossy l2
              | [] => [65533]
              end
            else 65533 :: from_utf8_lossy l1
        | [] => [65533]
        end
      else 65533 :: from_utf8_lossy l1
  end.

(** [char::encode_utf8] *)
Definition encode_utf8 (c : N) : list N :=
  if c <? 128 then [c]
  else if c <? 2048 then [192 + c / 64; 128 + c mod 64]
  else if c <? 65536 then [224 + c / 4096; 128 + (c / 64) mod 64; 128 + c mod 64]
  else [240 + c / 262144; 128 + (c / 4096) mod 64; 128 + (c / 64) mod 64; 128 + c mod 64].

(** [{:x}] of an unsigned integer *)
Fixpoint hex_digits (u : Hexadecimal.uint) : list N :=
  match u with
  | Hexadecimal.Nil => []
  | Hexadecimal.D0 u => 48 :: hex_digits u | Hexadecimal.D1 u => 49 :: hex_digits u
  | Hexadecimal.D2 u => 50 :: hex_digits u | Hexadecimal.D3 u => 51 :: hex_digits u
  | Hexadecimal.D4 u => 52 :: hex_digits u | Hexadecimal.D5 u => 53 :: hex_digits u
  | Hexadecimal.D6 u => 54 :: hex_digits u | Hexadecimal.D7 u => 55 :: hex_digits u
  | Hexadecimal.D8 u => 56 :: hex_digits u | Hexadecimal.D9 u => 57 :: hex_digits u
  | Hexadecimal.Da u => 97 :: hex_digits u | Hexadecimal.Db u => 98 :: hex_digits u
  | Hexadecimal.Dc u => 99 :: hex_digits u | Hexadecimal.Dd u => 100 :: hex_digits u
  | Hexadecimal.De u => 101 :: hex_digits u | Hexadecimal.Df u => 102 :: hex_digits u
  end.
Definition hexadecimal (n : N) : list N := hex_digits (N.to_hex_uint n).

(** [{:?}] of a string: [char::escape_debug] of each character, but single quotes as they are *)
Definition string_char (plain : N -> bool) (c : N) : list N :=
  if c =? 0 then text "\0"
  else if c =? 9 then text "\t"
  else if c =? 10 then text "\n"
  else if c =? 13 then text "\r"
  else if c =? 34 then [92; 34]
  else if c =? 92 then [92; 92]
  else if (if c <? 128 then in_range 32 126 c else plain c) then encode_utf8 c
  else text "\u{" ++ hexadecimal c ++ text "}".
Definition string_debug (plain : N -> bool) (s : list N) : list N := [34] ++ List.concat (map (string_char plain) s) ++ [34].

(** [{:4}] of an unsigned integer *)
Definition padded (n : N) : list N := let d := decimal n in repeat 32 (4 - List.length d) ++ d.

(** Derived [Debug] of [bool] and [Option<u16>] *)
Definition bool_debug (b : bool) : list N := if b then text "true" else text "false".
Definition option_debug {A} (f : A -> list N) (o : option A) : list N :=
  match o with Some x => text "Some(" ++ f x ++ text ")" | None => text "None" end.

(** lookahead.rs:5-10, picker.rs:4-8 *)
Definition lookahead_debug (l : Lookahead) : list N :=
  match l with LGreedy => text "Greedy" | LGzip => text "Gzip" | LThreeZip => text "ThreeZip" end.
Definition picker_debug (p : Picker) : list N :=
  match p with Longest => text "Longest" | DropFarThrees => text "DropFarThrees" end.

(** wams.rs:16-23 *)
Definition lookahead_config_debug (l : LookaheadConfig) : list N :=
  text "LookaheadConfig { apathetic_above_length: " ++ decimal (apathetic_above_length l)
  ++ text ", abort_above_length: " ++ decimal (abort_above_length l) ++ text " }".

(** wams.rs:1-14 *)
Definition wams_debug (w : WamsOptimisations) : list N :=
  text "WamsOptimisations { quit_search_above_length: " ++ decimal (quit_search_above_length w)
  ++ text ", limit_count_of_distances: " ++ decimal (N.of_nat (limit_count_of_distances w))
  ++ text ", insert_only_below_length: " ++ option_debug decimal (insert_only_below_length w)
  ++ text ", lookahead: " ++ option_debug lookahead_config_debug (wams_lookahead w) ++ text " }".

(** technique.rs:15-21 *)
Definition config_debug (c : Config) : list N :=
  text "Config { first_byte_bug: " ++ bool_debug (first_byte_bug c) ++ text ", lookahead: " ++ lookahead_debug (cfg_lookahead c)
  ++ text ", picker: " ++ picker_debug (cfg_picker c) ++ text ", wams: " ++ wams_debug (cfg_wams c) ++ text " }".

(** technique.rs:23-27 *)
Definition technique_debug (t : Technique) : outcome (list N) :=
  r <-? refs_text (t_refs t) ;;
  Ok (text "Technique { config: " ++ config_debug (t_config t) ++ text ", all_refs: " ++ r ++ text " }").

(** obscure.rs:3: a pair *)
Definition obscure_debug (o : Obscure) : list N :=
  text "(" ++ decimal (N.of_nat (fst o)) ++ text ", " ++ decimal (snd o) ++ text ")".

(** technique.rs:81-87 *)
Definition scanner_debug (t : Technique) (s : Scanner) : outcome (list N) :=
  d <-? technique_debug t ;;
  Ok (text "Scanner { technique: " ++ d ++ text ", obscured: " ++ list_debug obscure_debug (sc_obscured s)
      ++ text ", pos: " ++ decimal (N.of_nat (sc_pos s)) ++ text " }").

(** trace.rs:32-44,128,137-158: the text of a line, without the newline *)
Definition example_line_text (plain : N -> bool) (l : example_line) : outcome (list N) :=
  match l with
  | XBlock id => Ok (text "block " ++ decimal (N.of_nat id) ++ text ":")
  | XStored len => Ok (text " - uncompressed: " ++ decimal (N.of_nat len) ++ text " bytes")
  | XFixed => Ok (text " - fixed huffman:")
  | XDynamic trees => t <-? bitvec_debug trees ;; Ok (text " - dynamic huffman: " ++ t)
  | XSize name bytes => Ok (text "   * trace: " ++ text name ++ text " -> " ++ decimal (N.of_nat bytes))
  | XHint pos context guess hint =>
      Ok (text "   " ++ padded (N.of_nat pos) ++ text ". " ++ string_debug plain (from_utf8_lossy context)
          ++ text " guess: " ++ list_debug code_debug guess ++ text " trace: "
          ++ match hint with Actually r => ref_debug r | _ => text "literal" end)
  | XGuesser technique s => d <-? scanner_debug technique s ;; Ok (text "   * guesser: " ++ d)
  | XBlank => Ok []
  end.

(** All that is printed. *)
Fixpoint example_text (plain : N -> bool) (lines : list example_line) : outcome (list N) :=
  match lines with
  | [] => Ok []
  | l :: lines' => t <-? example_line_text plain l ;; more <-? example_text plain lines' ;; Ok (t ++ [10] ++ more)
  end.
