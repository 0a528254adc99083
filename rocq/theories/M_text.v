(** Model of the text that is printed: the [Debug] implementations of lib/src/lib.rs, bit.rs, code_tree.rs,
    back_map.rs and all_refs.rs, and the lines of rezippers/src/dump.rs.  Text is its UTF-8 bytes.  Modelled of the
    standard library's formatting: [{}] of unsigned integers, [{:02x}], [{:04x}], [{:?}] of a [char] below U+0100
    and of slices.  Errors of the formatter are left out. *)
From Verif Require Import Base M_bit M_lib M_code_tree M_huffman M_gzip M_parse M_all_refs M_debug M_dump.
From Coq Require Import Decimal DecimalN Ascii.
Local Open Scope N_scope.
Local Open Scope model_scope.

(** A string literal. *)
Definition text (s : string) : list N := map N_of_ascii (list_ascii_of_string s).

(** [{}] of an unsigned integer *)
Fixpoint digits (u : uint) : list N :=
  match u with
  | Nil => []
  | D0 u => 48 :: digits u | D1 u => 49 :: digits u | D2 u => 50 :: digits u | D3 u => 51 :: digits u
  | D4 u => 52 :: digits u | D5 u => 53 :: digits u | D6 u => 54 :: digits u | D7 u => 55 :: digits u
  | D8 u => 56 :: digits u | D9 u => 57 :: digits u
  end.
Definition decimal (n : N) : list N := digits (N.to_uint n).

(** [{:02x}] of a byte, [{:04x}] of a hash *)
Definition hex_digit (d : N) : N := if d <? 10 then 48 + d else 87 + d.
Definition hex2 (b : N) : list N := [hex_digit (b / 16); hex_digit (b mod 16)].
Definition hex4 (n : N) : list N := hex2 (n / 256) ++ hex2 (n mod 256).

(** [{}] of [c as char]: UTF-8 of a code point below U+0100 *)
Definition char_display (c : N) : list N := if c <? 128 then [c] else [192 + c / 64; 128 + c mod 64].

(** [{:?}] of [c as char]: [char::escape_debug]; not printable below U+0100 are the control characters, U+00A0 and
    U+00AD *)
Definition char_debug (c : N) : list N :=
  [39]
  ++ (if c =? 0 then text "\0"
      else if c =? 9 then text "\t"
      else if c =? 10 then text "\n"
      else if c =? 13 then text "\r"
      else if c =? 39 then [92; 39]
      else if c =? 92 then [92; 92]
      else if (c <? 32) || ((127 <=? c) && (c <=? 160)) || (c =? 173)
           then text "\u{" ++ (if c <? 16 then [hex_digit c] else hex2 c) ++ text "}"
      else char_display c)
  ++ [39].

(** lib.rs:163-167 *)
Definition ref_debug (r : Ref) : list N := text "R[" ++ decimal (r_dist r) ++ text ", " ++ decimal (r_run r) ++ text "]".

(** lib.rs:144-151 *)
Definition code_debug (c : Code) : list N :=
  match c with
  | Literal b => text "L(0x" ++ hex2 b ++ text " " ++ char_debug b ++ text ")"
  | Reference r => text "R(-" ++ decimal (r_dist r) ++ text ", " ++ decimal (r_run r) ++ text ")"
  end.

(** lib.rs:153-161; the check mark is U+2713 *)
Definition trace_debug (t : Trace) : list N :=
  match t with
  | Correct => [226; 156; 147]
  | ActuallyLiteral => text "L"
  | Actually r => ref_debug r
  end.

(** [{:?}] of a slice or vector *)
Fixpoint list_debug_from {A} (f : A -> list N) (l : list A) : list N :=
  match l with
  | [] => text "]"
  | x :: l' => text ", " ++ f x ++ list_debug_from f l'
  end.
Definition list_debug {A} (f : A -> list N) (l : list A) : list N :=
  match l with
  | [] => text "[]"
  | x :: l' => text "[" ++ f x ++ list_debug_from f l'
  end.

(** bit.rs:327-335, from the values of [bv_debug] *)
Definition bits_text (bits : list bool) : list N := map (fun b : bool => if b then 49 else 48) bits.
Definition bitvec_debug (v : bitvec) : outcome (list N) :=
  d <-? bv_debug v ;; Ok (text "BitVec: " ++ decimal (N.of_nat (fst d)) ++ text ": " ++ bits_text (snd d)).

(** code_tree.rs:99-121, from the lines of [tree_debug] *)
Definition symbol_debug (s : symbol_text) : list N :=
  match s with
  | TByte b => text "0x" ++ hex2 b ++ text " " ++ char_debug b
  | TEnd => text "EoS"
  | TOther n => text "d:" ++ decimal n
  end.
Definition tree_text (t : code_tree) : list N :=
  List.concat (map (fun l => bits_text (fst l) ++ text " => " ++ symbol_debug (snd l) ++ [10]) (tree_debug t)).

(** back_map.rs:75-99, from the lines of [bm_debug] *)
Definition table_text (m : BackMap) : outcome (list N) :=
  lines <-? bm_debug m ;;
  Ok (List.concat (map (fun l => text " - " ++ hex4 (fst l) ++ text ": " ++ list_debug (fun n => decimal (N.of_nat n)) (snd l) ++ [10]) lines)).

(** all_refs.rs:185-189 *)
Definition refs_text (r : AllRefs) : outcome (list N) := t <-? table_text (ar_map r) ;; Ok (t ++ [10]).

(** all_refs.rs:163-165: [is_ascii_graphic] covers the other two *)
Definition normal_char (c : N) : bool := (33 <=? c) && (c <=? 126).

(** all_refs.rs:167-183 *)
Definition key_debug (k : Key) : list N :=
  if normal_char (k0 k) && normal_char (k1 k) && normal_char (k2 k)
  then [34] ++ char_display (k0 k) ++ char_display (k1 k) ++ char_display (k2 k) ++ [34]
  else char_debug (k0 k) ++ char_debug (k1 k) ++ char_debug (k2 k).

(** dump.rs:14-25,40-47: a line of dump, without the newline *)
Definition dump_line_text (l : dump_line) : outcome (list N) :=
  match l with
  | DBlock id => Ok (text "block " ++ decimal (N.of_nat id) ++ text ":")
  | DStored len => Ok (text " - uncompressed: " ++ decimal (N.of_nat len) ++ text " bytes")
  | DFixed => Ok (text " - fixed huffman:")
  | DDynamic trees => t <-? bitvec_debug trees ;; Ok (text " - dynamic huffman: " ++ t)
  | DLit chr => Ok (text "    - lit: 0x" ++ hex2 chr ++ text ": " ++ char_debug chr)
  | DBackref dist run => Ok (text "    - backref: " ++ decimal dist ++ text " byte(s) back, " ++ decimal run ++ text " bytes long")
  end.
Fixpoint dump_text (lines : list dump_line) : outcome (list N) :=
  match lines with
  | [] => Ok []
  | l :: lines' => t <-? dump_line_text l ;; more <-? dump_text lines' ;; Ok (t ++ [10] ++ more)
  end.
