(** Properties C09-C15: match codec, code trees, dynamic headers (lib/src/huffman.rs, lib/src/code_tree.rs,
    lib/src/parse.rs). *)
From Verif Require Import Base M_bit M_lib M_code_tree M_huffman M_parse Spec Clients L_P_huff.
Local Open Scope N_scope.
Local Open Scope model_scope.

(** C09: for every match length the encoder's symbol and extra bits are a row of the RFC 1951 table (the
    only one, but for 258, which the RFC table also reaches from symbol 284), and decoding that symbol at
    any bit offset of any stream that goes on with those extra bits gives the length back. *)
Theorem C09_length_encode : forall len, 3 <= len <= 258 ->
  exists sym x,
    encode_run_length len = Ok sym /\ extra_run_length len = Ok x
    /\ let extra := match x with Some p => fst p | None => 0 end in
       let val := match x with Some p => snd p | None => 0 end in
       table_row length_table len sym extra val
       /\ (forall s n v, table_row length_table len s n v -> s = sym \/ (s = 284 /\ len = 258))
       /\ (forall bytes e off r, bytes_ok bytes -> at_bit bytes e off r ->
             bits_at bytes off (lsb (N.to_nat extra) val) ->
             exists r', decode_run_length br_read_bit sym r = (Ok len, r')
                        /\ at_bit bytes e (off + N.to_nat extra) r').
Proof. exact C09_lemma_encode. Qed.
Print Assumptions C09_length_encode.

(** C09: at any bit offset of any stream, every symbol of the table decodes to the length the RFC assigns
    to the bits that follow (the I/O error of the input if there are too few); every other symbol is an error, and nothing is read. *)
Theorem C09_length_decode : forall bytes e off r sym, bytes_ok bytes -> at_bit bytes e off r ->
  (forall extra base, In (sym, extra, base) length_table ->
     if (off + N.to_nat extra <=? 8 * List.length bytes)%nat
     then exists r', decode_run_length br_read_bit sym r
            = (Ok (base + lsb_value (firstn (N.to_nat extra) (skipn off (bits_of_bytes bytes)))), r')
            /\ at_bit bytes e (off + N.to_nat extra) r'
     else fst (decode_run_length br_read_bit sym r) = Err (EIo e))
  /\ (~ 257 <= sym <= 285 ->
      decode_run_length br_read_bit sym r
      = (Err (EMsg (if (sym =? 286) || (sym =? 287) then "reserved symbol" else "decompressor bug")), r)).
Proof. exact C09_lemma_decode. Qed.
Print Assumptions C09_length_decode.

Example C09_case : encode_run_length 257 = Ok 284 /\ extra_run_length 257 = Ok (Some (5, 30))
  /\ fst (decode_run_length br_read_bit 284 (br_new (mkSource [30] UnexpectedEof))) = Ok 257
  /\ fst (decode_run_length br_read_bit 286 (br_new (mkSource [30] UnexpectedEof))) = Err (EMsg "reserved symbol").
Proof. repeat split; vm_compute; reflexivity. Qed.

(** C10: the same for distances; here the table row is unique. *)
Theorem C10_distance_encode : forall dist, 1 <= dist <= 32768 ->
  exists sym extra val,
    huff_encode_distance dist = Ok (Some (sym, extra, val))
    /\ table_row distance_table dist sym extra val
    /\ (forall s n v, table_row distance_table dist s n v -> s = sym /\ n = extra /\ v = val)
    /\ (forall bytes e off r, bytes_ok bytes -> at_bit bytes e off r ->
          bits_at bytes off (lsb (N.to_nat extra) val) ->
          exists r', decode_distance br_read_bit sym r = (Ok dist, r')
                     /\ at_bit bytes e (off + N.to_nat extra) r').
Proof. exact C10_lemma_encode. Qed.
Print Assumptions C10_distance_encode.

(** C10: decoding any distance symbol at any offset of any stream. *)
Theorem C10_distance_decode : forall bytes e off r sym, bytes_ok bytes -> at_bit bytes e off r ->
  (forall extra base, In (sym, extra, base) distance_table ->
     if (off + N.to_nat extra <=? 8 * List.length bytes)%nat
     then exists r', decode_distance br_read_bit sym r
            = (Ok (base + lsb_value (firstn (N.to_nat extra) (skipn off (bits_of_bytes bytes)))), r')
            /\ at_bit bytes e (off + N.to_nat extra) r'
     else fst (decode_distance br_read_bit sym r) = Err (EIo e))
  /\ (29 < sym ->
      decode_distance br_read_bit sym r
      = (Err (EMsg (if sym <=? 31 then "reserved distance symbol" else "invalid distance symbol")), r)).
Proof. exact C10_lemma_decode. Qed.
Print Assumptions C10_distance_decode.

Example C10_case : huff_encode_distance 32768 = Ok (Some (29, 13, 8191))
  /\ fst (decode_distance br_read_bit 29 (br_new (mkSource [255; 31] UnexpectedEof))) = Ok 32768.
Proof. split; vm_compute; reflexivity. Qed.

(** C11: a tree is built from a list of code lengths exactly when the lengths form a complete code. *)
Theorem C11_tree_accepts_complete_codes : forall lens, N.of_nat (List.length lens) <= 65536 ->
  (complete lens -> exists t, tree_new lens = Ok t)
  /\ (~ complete lens -> exists e, tree_new lens = Err e).
Proof. exact C11_lemma. Qed.
Print Assumptions C11_tree_accepts_complete_codes.

Example C11_case : tree_new [1; 2; 3; 3] = Ok (mkTree (Leaf 0) (Internal (Leaf 1) (Internal (Leaf 2) (Leaf 3))))
  /\ complete [1; 2; 3; 3] /\ kraft [1; 1; 1] = 49152 /\ kraft [1; 2] = 24576.
Proof. repeat split; try reflexivity. cbn. lia. Qed.

(** C12: inverting an accepted tree gives, for each of the 288 symbols, exactly the canonical code of RFC
    1951 section 3.2.2; a symbol has a code iff its length is positive, and the code has that length. *)
Theorem C12_canonical_codes : forall lens t, (List.length lens <= 288)%nat -> tree_new lens = Ok t ->
  exists inv, tree_invert t = Ok inv /\ List.length inv = 288%nat
    /\ (forall s, s < 288 ->
          nth_error inv (N.to_nat s)
          = Some (match rfc_code lens s with Some w => Some (bitvec_of w) | None => None end))
    /\ (forall s l, nth_error lens (N.to_nat s) = Some l -> l <= 15 ->
          (rfc_code lens s <> None <-> 0 < l)
          /\ forall w, rfc_code lens s = Some w -> N.of_nat (List.length w) = l).
Proof. exact C12_lemma. Qed.
Print Assumptions C12_canonical_codes.

Example C12_case : exists t, tree_new [2; 1; 3; 3] = Ok t
  /\ map (rfc_code [2; 1; 3; 3]) [0; 1; 2; 3] = [Some [true; false]; Some [false]; Some [true; true; false]; Some [true; true; true]].
Proof. eexists. split; vm_compute; reflexivity. Qed.

(** C13: at any bit offset of any stream, decoding a symbol succeeds on a code word, with its symbol, and
    only on a code word, consuming exactly it; else it fails as the input ends; and no code word is a prefix of another. *)
Theorem C13_decode_symbol : forall lens t, N.of_nat (List.length lens) <= 65536 -> tree_new lens = Ok t ->
  (forall bytes e off r, bytes_ok bytes -> at_bit bytes e off r ->
     (forall s w, rfc_code lens s = Some w -> bits_at bytes off w ->
        exists r', decode_symbol br_read_bit t r = (Ok s, r') /\ at_bit bytes e (off + List.length w) r')
     /\ (forall s r', decode_symbol br_read_bit t r = (Ok s, r') ->
           exists w, rfc_code lens s = Some w /\ bits_at bytes off w /\ at_bit bytes e (off + List.length w) r')
     /\ ((exists s r', decode_symbol br_read_bit t r = (Ok s, r')) \/ fst (decode_symbol br_read_bit t r) = Err (EIo e)))
  /\ (forall s1 s2 w1 w2 more, rfc_code lens s1 = Some w1 -> rfc_code lens s2 = Some w2 ->
        w2 = w1 ++ more -> s1 = s2 /\ more = []).
Proof. exact C13_lemma. Qed.
Print Assumptions C13_decode_symbol.

Example C13_case : exists t r r', tree_new [2; 1; 3; 3] = Ok t /\ bytes_ok [90; 3]
  /\ at_bit [90; 3] UnexpectedEof 3 r /\ bits_at [90; 3] 3 [true; true; false]
  /\ decode_symbol br_read_bit t r = (Ok 2, r').
Proof.
  do 3 eexists. split; [vm_compute; reflexivity|]. split; [repeat constructor|].
  split; [eexists; vm_compute; reflexivity|]. split; [eexists; vm_compute; reflexivity|]. vm_compute. reflexivity.
Qed.

(** C14: at any bit offset of any stream, reading a dynamic header succeeds exactly when the bits from there
    on start with a header of the RFC 1951 grammar, consumes exactly that header, and returns tables with
    the announced code lengths; it never panics. *)
Theorem C14_dynamic_header : forall bytes e off r, bytes_ok bytes -> at_bit bytes e off r ->
  (forall ll dl hdr, dyn_header ll dl hdr -> bits_at bytes off hdr ->
     exists lt dt r', read_codes br_read_bit r = (Ok (lt, dt), r') /\ at_bit bytes e (off + List.length hdr) r')
  /\ (forall lt dt r', read_codes br_read_bit r = (Ok (lt, dt), r') ->
        exists ll dl hdr inv,
          dyn_header ll dl hdr /\ bits_at bytes off hdr /\ at_bit bytes e (off + List.length hdr) r'
          /\ tree_new ll = Ok lt /\ tree_invert lt = Ok inv
          /\ (forall s, s < 288 -> nth_error inv (N.to_nat s)
                 = Some (match rfc_code ll s with Some w => Some (bitvec_of w) | None => None end))
          /\ match dt with
             | None => dl = [0]
             | Some t => dl <> [0] /\ exists dinv, tree_invert t = Ok dinv /\ forall s, s <= 30 ->
                 nth_error dinv (N.to_nat s)
                 = Some (match rfc_code dl s with Some w => Some (bitvec_of w) | None => None end)
             end)
  /\ returns (fst (read_codes br_read_bit r)).
Proof. exact C14_lemma. Qed.
Print Assumptions C14_dynamic_header.

(** A dynamic block written by zlib. *)
Definition zlib_block : list N :=
  [5; 193; 7; 1; 0; 32; 0; 195; 48; 109; 124; 29; 221; 241; 111; 129; 100; 56; 61; 42; 147; 112; 45; 86; 154;
   87; 216; 193; 67; 248; 52; 154; 192; 197; 94; 56; 47; 234; 134; 12; 91; 31].

Example C14_case : exists r lt dt r', bytes_ok zlib_block /\ at_bit zlib_block UnexpectedEof 3 r
  /\ read_codes br_read_bit r = (Ok (lt, Some dt), r').
Proof.
  do 4 eexists. split; [repeat constructor|]. split; [eexists; vm_compute; reflexivity|]. vm_compute. reflexivity.
Qed.

(** C15: the tree bits recorded for a dynamic block are exactly the header bits of the stream, and reading
    them again from the recording gives the same tables. *)
Theorem C15_recorded_header_replays : forall bytes e off r trees codes r', bytes_ok bytes -> at_bit bytes e off r ->
  read_block r = (Ok (DynamicHuffman trees codes), r') ->
  exists hdr lt dt r2 r3,
    trees = bitvec_of hdr
    /\ bits_at bytes (off + 2) hdr
    /\ at_bit bytes e (off + 2) r2
    /\ read_codes br_read_bit r2 = (Ok (lt, dt), r3)
    /\ at_bit bytes e (off + 2 + List.length hdr) r3
    /\ fst (read_codes si_read_bit (bv_iter trees)) = Ok (lt, dt).
Proof. exact C15_lemma. Qed.
Print Assumptions C15_recorded_header_replays.

Example C15_case : exists r trees codes r', bytes_ok zlib_block /\ at_bit zlib_block UnexpectedEof 1 r
  /\ read_block r = (Ok (DynamicHuffman trees codes), r') /\ List.length codes = 60%nat.
Proof.
  do 4 eexists. split; [repeat constructor|]. split; [eexists; vm_compute; reflexivity|].
  split; [vm_compute; reflexivity|reflexivity].
Qed.
