(** The repository's own tests, run on the model.  These are tests of the model's fidelity, not proofs of
    properties; no theorem depends on this file.  The tests that compare gzip with the tracer, and the round trips of
    small files, are evaluated here.  The round trips of the two 20480-byte archives (lib.rs libcgi_round_trip,
    librole_round_trip) also come out as expected, but take minutes and are not part of the build. *)
From Verif Require Import Base M_bit M_lib M_circles M_gzip M_parse M_serialise M_all_refs M_technique M_trace M_fuzz M_rezippers M_harness
  Spec Clients Clients_file.
Local Open Scope N_scope.
Local Open Scope model_scope.

(** lib/tests/tracing_size.rs:35-46, as whether it returns *)
Definition passes (level : N) (file : list N) : bool := match harness_try_gzip level file with Ok _ => true | _ => false end.

Example tiny_decay_1_1 : passes 1
  [31; 139; 8; 0; 0; 0; 0; 0; 4; 3; 51; 76; 76; 74; 78; 73; 77; 211; 1; 147; 186; 32; 38; 0; 115; 248; 48; 47; 18; 0; 0; 0] = true.
Proof. vm_compute. reflexivity. Qed.
Example tiny_decay_3_3 : passes 3
  [31; 139; 8; 0; 0; 0; 0; 0; 0; 3; 51; 76; 76; 74; 78; 73; 77; 211; 1; 147; 186; 32; 2; 0; 115; 248; 48; 47; 18; 0; 0; 0] = true.
Proof. vm_compute. reflexivity. Qed.
Example decaying_1_1 : passes 1
  [31; 139; 8; 0; 0; 0; 0; 0; 4; 3; 51; 208; 75; 76; 74; 78; 73; 77; 75; 143; 207; 200; 204; 202; 206; 201; 213; 49; 132; 9; 64; 249; 70; 122; 16; 121; 40; 215; 88; 15; 172; 26; 202; 51; 209; 3; 105; 133; 112; 0; 134; 130; 82; 19; 74; 0; 0; 0] = true.
Proof. vm_compute. reflexivity. Qed.
(** #[ignore] // currently broken *)
Example decaying_1_2 : passes 2
  [31; 139; 8; 0; 0; 0; 0; 0; 4; 3; 51; 208; 75; 76; 74; 78; 73; 77; 75; 143; 207; 200; 204; 202; 206; 201; 213; 49; 132; 9; 64; 249; 70; 122; 16; 121; 40; 215; 88; 15; 172; 26; 202; 51; 209; 3; 105; 133; 112; 0; 134; 130; 82; 19; 74; 0; 0; 0] = false.
Proof. vm_compute. reflexivity. Qed.
(** #[ignore] // currently broken *)
Example decaying_1_3 : passes 3
  [31; 139; 8; 0; 0; 0; 0; 0; 4; 3; 51; 208; 75; 76; 74; 78; 73; 77; 75; 143; 207; 200; 204; 202; 206; 201; 213; 49; 132; 9; 64; 249; 70; 122; 16; 121; 40; 215; 88; 15; 172; 26; 202; 51; 209; 3; 105; 133; 112; 0; 134; 130; 82; 19; 74; 0; 0; 0] = false.
Proof. vm_compute. reflexivity. Qed.
Example decaying_2_2 : passes 2
  [31; 139; 8; 0; 0; 0; 0; 0; 0; 3; 51; 208; 75; 76; 74; 78; 73; 77; 75; 143; 207; 200; 204; 202; 206; 201; 213; 49; 132; 9; 64; 249; 70; 122; 16; 121; 40; 215; 88; 15; 172; 26; 202; 51; 209; 67; 112; 0; 134; 130; 82; 19; 74; 0; 0; 0] = true.
Proof. vm_compute. reflexivity. Qed.
Example decaying_3_3 : passes 3
  [31; 139; 8; 0; 0; 0; 0; 0; 0; 3; 51; 208; 75; 76; 74; 78; 73; 77; 75; 143; 207; 200; 204; 202; 206; 201; 213; 49; 132; 9; 64; 249; 70; 122; 16; 121; 40; 215; 88; 15; 153; 103; 162; 135; 144; 2; 0; 134; 130; 82; 19; 74; 0; 0; 0] = true.
Proof. vm_compute. reflexivity. Qed.
Example four_ref_1_1 : passes 1
  [31; 139; 8; 0; 0; 0; 0; 0; 4; 3; 51; 72; 78; 44; 49; 4; 98; 35; 32; 54; 6; 98; 19; 32; 54; 5; 98; 67; 0; 19; 178; 11; 234; 25; 0; 0; 0] = true.
Proof. vm_compute. reflexivity. Qed.
Example four_ref_2_2 : passes 2
  [31; 139; 8; 0; 0; 0; 0; 0; 0; 3; 51; 72; 78; 44; 49; 4; 98; 35; 32; 54; 6; 98; 19; 32; 54; 5; 137; 1; 0; 19; 178; 11; 234; 25; 0; 0; 0] = true.
Proof. vm_compute. reflexivity. Qed.
Example ten_nine_1_1 : passes 1
  [31; 139; 8; 0; 0; 0; 0; 0; 4; 3; 75; 76; 132; 129; 36; 24; 35; 17; 0; 205; 48; 88; 205; 20; 0; 0; 0] = true.
Proof. vm_compute. reflexivity. Qed.
Example ten_nine_2_2 : passes 2
  [31; 139; 8; 0; 0; 0; 0; 0; 0; 3; 75; 76; 132; 129; 36; 56; 11; 0; 205; 48; 88; 205; 20; 0; 0; 0] = true.
Proof. vm_compute. reflexivity. Qed.
Example dumb_collision : passes 1
  [31; 139; 8; 0; 0; 0; 0; 0; 4; 3; 139; 55; 76; 76; 76; 4; 0; 252; 154; 176; 59; 5; 0; 0; 0] = true.
Proof. vm_compute. reflexivity. Qed.
Example colliding_back_miss : passes 1
  [31; 139; 8; 0; 0; 0; 0; 0; 4; 3; 115; 204; 207; 207; 119; 4; 226; 252; 124; 127; 32; 118; 4; 0; 50; 34; 107; 45; 15; 0; 0; 0] = true.
Proof. vm_compute. reflexivity. Qed.
Example woo_goo : passes 1
  [31; 139; 8; 0; 0; 0; 0; 0; 4; 3; 43; 207; 7; 1; 127; 32; 78; 7; 49; 242; 1; 160; 0; 217; 59; 16; 0; 0; 0] = true.
Proof. vm_compute. reflexivity. Qed.

(** lib/src/lib.rs seq_20_round_trip *)
Definition seq_20_round_trip_file : list N :=
  [31; 139; 8; 0; 52; 3; 192; 89; 0; 3; 5; 193; 201; 1; 0; 32; 8; 192; 176; 127; 167; 177; 136; 28; 251; 47; 102; 34; 193; 37; 121; 20; 205; 176; 120; 80; 12; 188; 152; 248; 176; 176; 113; 112; 137; 195; 7; 253; 159; 212; 107; 51; 0; 0; 0].
Example seq_20_round_trip : recreate_file seq_20_round_trip_file = Ok seq_20_round_trip_file.
Proof. vm_compute. reflexivity. Qed.
Example seq_20_round_trip_length :
  List.length (written (snd (cat_run (mkSource seq_20_round_trip_file UnexpectedEof) new_sink))) = 51%nat.
Proof. vm_compute. reflexivity. Qed.

(** lib/src/lib.rs lol_round_trip *)
Definition lol_round_trip_file : list N :=
  [31; 139; 8; 0; 0; 0; 0; 0; 4; 3; 203; 201; 207; 1; 0; 77; 177; 237; 24; 3; 0; 0; 0].
Example lol_round_trip : recreate_file lol_round_trip_file = Ok lol_round_trip_file.
Proof. vm_compute. reflexivity. Qed.
Example lol_round_trip_length :
  List.length (written (snd (cat_run (mkSource lol_round_trip_file UnexpectedEof) new_sink))) = 3%nat.
Proof. vm_compute. reflexivity. Qed.

(** lib/src/lib.rs like_love_round_trip *)
Definition like_love_round_trip_file : list N :=
  [31; 139; 8; 0; 0; 0; 0; 0; 2; 3; 243; 84; 200; 201; 204; 78; 85; 72; 206; 200; 76; 206; 78; 205; 211; 81; 240; 84; 200; 201; 47; 75; 5; 10; 150; 165; 22; 233; 1; 0; 45; 191; 77; 226; 29; 0; 0; 0].
Example like_love_round_trip : recreate_file like_love_round_trip_file = Ok like_love_round_trip_file.
Proof. vm_compute. reflexivity. Qed.
Example like_love_round_trip_length :
  List.length (written (snd (cat_run (mkSource like_love_round_trip_file UnexpectedEof) new_sink))) = 29%nat.
Proof. vm_compute. reflexivity. Qed.

(** lib/src/lib.rs simple_backreference_round_trip *)
Definition simple_backreference_round_trip_file : list N :=
  [31; 139; 8; 0; 0; 0; 0; 0; 0; 3; 75; 76; 74; 78; 73; 77; 83; 0; 147; 233; 0; 63; 69; 8; 71; 13; 0; 0; 0].
Example simple_backreference_round_trip : recreate_file simple_backreference_round_trip_file = Ok simple_backreference_round_trip_file.
Proof. vm_compute. reflexivity. Qed.
Example simple_backreference_round_trip_length :
  List.length (written (snd (cat_run (mkSource simple_backreference_round_trip_file UnexpectedEof) new_sink))) = 13%nat.
Proof. vm_compute. reflexivity. Qed.

(** lib/src/parse.rs parse_lol *)
Example parse_lol : fst (parse_all (mkSource [203; 201; 207; 1; 0; 77; 177; 237; 24; 3; 0; 0; 0] UnexpectedEof))
  = Ok [FixedHuffman [Literal 108; Literal 111; Literal 108]].
Proof. vm_compute. reflexivity. Qed.

(** lib/src/all_refs.rs hash_sixteen_16_collisions *)
Example hash_sixteen_16_collisions : sixteen_hash_16 (mkKey 3 1 1) = 3105
  /\ sixteen_hash_16 (mkKey 79 111 111) = sixteen_hash_16 (mkKey 111 111 111).
Proof. split; vm_compute; reflexivity. Qed.

(** lib/src/obscure.rs obscured *)
Example obscured : obscure [6; 4; 2]%nat [(3%nat, 2)] = [6; 2]%nat.
Proof. reflexivity. Qed.

(** lib/src/iters.rs first_item *)
Example first_item : map (fun cap => capped_max_by (fun x => x) cap [5; 6; 7]) [4; 5; 6; 7; 128]
  = [Some 5; Some 5; Some 6; Some 7; Some 7].
Proof. reflexivity. Qed.

(** lib/src/picker.rs longest_in_the_right_order *)
Example longest_in_the_right_order : longest [mkRef 1 0; mkRef 2 2] 258 = Some (mkRef 2 2).
Proof. reflexivity. Qed.

(** lib/src/trace.rs prefix, with literals for the numbers *)
Example prefix :
  let c := map Literal in
  shared_prefix (c [1; 2]) (c [1; 2]) = (c [1; 2], []) /\ shared_prefix [] (c [1; 2]) = ([], c [1; 2])
  /\ shared_prefix (c [1; 5; 7]) (c [1; 2]) = (c [1], c [2]) /\ shared_prefix (c [1; 5; 7]) [] = ([], []).
Proof. repeat split; reflexivity. Qed.

(** lib/src/circles.rs dist *)
Example dist :
  (buf <-? cb_with_capacity 10 ;;
   buf <-? cb_extend buf [97; 98; 99; 100; 101; 102] ;;
   f <-? cb_get_at_dist true buf 1 ;;
   a <-? cb_get_at_dist true buf 6 ;;
   buf <-? cb_extend buf [113; 114; 115; 116; 117; 118] ;;
   v <-? cb_get_at_dist true buf 1 ;;
   q <-? cb_get_at_dist true buf 6 ;;
   f' <-? cb_get_at_dist true buf 7 ;;
   Ok [f; a; v; q; f']) = Ok [102; 97; 118; 113; 102].
Proof. vm_compute. reflexivity. Qed.

(** lib/src/circles.rs test_invalid_dist *)
Example test_invalid_dist : exists m,
  (buf <-? cb_with_capacity 10 ;;
   buf <-? cb_extend buf [97; 98; 99; 100; 101; 102] ;;
   cb_get_at_dist true buf 7) = Panic m.
Proof. eexists. vm_compute. reflexivity. Qed.

(** lib/src/circles.rs veccy *)
Example veccy :
  (buf <-? cb_with_capacity 6 ;;
   buf <-? cb_extend buf [97; 98; 99; 100; 101; 102; 103; 104; 105; 106] ;;
   cb_vec true buf) = Ok [101; 102; 103; 104; 105; 106].
Proof. vm_compute. reflexivity. Qed.

(** lib/src/bit.rs vec_pop_byte and vec_iter *)
Fixpoint push_all (v : bitvec) (bits : list bool) : outcome bitvec :=
  match bits with [] => Ok v | b :: bits' => v <-? bv_push v b ;; push_all v bits' end.
Definition eight_bits : list bool := [true; false; false; true; false; true; true; true].
Example vec_pop_byte :
  (v <-? push_all bv_new eight_bits ;; r <-? bv_pop_byte v ;; Ok (fst r, bv_len (snd r))) = Ok (Some 233, 0%nat).
Proof. vm_compute. reflexivity. Qed.
Example vec_iter : (v <-? push_all bv_new eight_bits ;; bv_to_list v) = Ok eight_bits.
Proof. vm_compute. reflexivity. Qed.

(** lib/src/bit.rs write_read, vec_push and vec_push_pop *)
Example write_read :
  let bits := [true; false; false; true; true; true; false; false] in
  let '(o, w) := write_bits bits (bw_new new_sink) in
  o = Ok tt /\ (s <-? bw_into_inner w ;; fst (read_bits 8 (br_new (mkSource (written s) UnexpectedEof)))) = Ok bits.
Proof. vm_compute. split; reflexivity. Qed.
Example vec_push : (v <-? push_all bv_new (map Nat.even (seq 0 100)) ;; Ok (bv_len v)) = Ok 100%nat.
Proof. vm_compute. reflexivity. Qed.
Example vec_push_pop :
  (v <-? push_all bv_new [true; false] ;; r <-? run_vec_ops [VPop; VPop] v ;; Ok (bv_len v, fst r, bv_len (snd r)))
    = Ok (2%nat, [Some false; Some true], 0%nat)
  /\ (v <-? push_all bv_new eight_bits ;; r <-? run_vec_ops (repeat VPop 9) v ;; Ok (fst r))
    = Ok [Some true; Some true; Some true; Some false; Some true; Some false; Some false; Some true; None].
Proof. split; vm_compute; reflexivity. Qed.

(** lib/src/serialise_trace.rs long_trace, on its first and last list *)
Definition round_trips (hints : list Trace) : bool :=
  match st_write hints with
  | Ok bytes => match fst (st_read (mkSource bytes UnexpectedEof)) with Ok back => slice_eqb Trace_eqb hints back | _ => false end
  | _ => false
  end.
Example long_trace :
  round_trips (repeat Correct (N.to_nat 32765)) = true
  /\ round_trips (Correct :: ActuallyLiteral :: repeat Correct (N.to_nat 32773) ++ [ActuallyLiteral]) = true.
Proof. split; vm_compute; reflexivity. Qed.
