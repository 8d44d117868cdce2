(** The unit tests of /repo/test run on the model: generated by tools/mktests.py, do not edit.
    They are tests, not properties: they compare the model with what the authors of the code observed on it.
    [with_checksum]: add_checksum = true; set_*: bitstream_parser_state.*[id] = ...; a mock parameter set has the default values of the C++ struct. *)
From Coq Require Import ZArith List Bool.
From Verif Require Import MBase MBitBuffer MCommon MFraming MSyntaxA MProfile MSyntaxB MSps MPps MSlice MSei MNal MRtp.
Import ListNotations.
Open Scope Z_scope.
Definition with_checksum : options := mkOpts (add_offset default_options) (add_length default_options) (add_parsed_length default_options) true (add_resolution default_options).
Definition set_vps (s : state) (k : Z) (v : vps_body * Z) : state := mkState (fun i => if i =? k then Some v else st_vps s i) (st_sps s) (st_pps s).
Definition set_sps (s : state) (k : Z) (v : sps * Z) : state := mkState (st_vps s) (fun i => if i =? k then Some v else st_sps s i) (st_pps s).
Definition set_pps (s : state) (k : Z) (v : pps * Z) : state := mkState (st_vps s) (st_sps s) (fun i => if i =? k then Some v else st_pps s i).
Fixpoint same (a b : list Z) : bool := match a, b with [], [] => true | x :: a, y :: b => (x =? y) && same a b | _, _ => false end.
Definition only_key_0 {A} (m : Z -> option A) : bool := forallb (fun k => match m (Z.of_nat k) with Some _ => Nat.eqb k 0 | None => negb (Nat.eqb k 0) end) (List.seq 0 64).
(** scaling_list_data in the order of the C++ vectors: sizeId, then matrixId; for 32x32 the entries between two that were read are empty (0). *)
Definition no_list : scaling_list := mkSL 0 0 0 [] [].
Definition by_matrix (l : list (list scaling_list)) : list (list scaling_list) :=
  match l with [a; b; c; [d; e]] => [a; b; c; [d; no_list; no_list; e; no_list; no_list]] | _ => l end.
(** scaling_list_dc_coef_minus8[sizeId - 2][matrixId]: the vectors of the last two sizes are filled with zeros. *)
Definition dc_vectors (l : list (list scaling_list)) : list (list Z) :=
  match map (map sl_dc) (by_matrix l) with [_; _; c; d] => [c; d; repeat 0 6; repeat 0 6] | v => v end.

(** * test/h265_aud_parser_unittest.cc *)
Example T_aud_parser_TestSampleAUD :
  let buffer_ := [255] in
  match on_data ParseAud buffer_ with Done (Some x1) =>
  ((x1 =? 7)) &&
  true | _ => false end = true.
Proof. vm_compute. reflexivity. Qed.
(** * test/h265_bitstream_parser_unittest.cc *)
Definition bitstream_parser_buffer : list Z := [0; 0; 0; 1; 64; 1; 12; 1; 255; 255; 1; 96; 0; 0; 3; 0; 176; 0; 0; 3; 0; 0; 3; 0; 93; 172; 89; 0; 0; 0; 1; 66; 1; 1; 1; 96; 0; 0; 3; 0; 176; 0; 0; 3; 0; 0; 3; 0; 93; 160; 2; 128; 128; 46; 31; 19; 150; 187; 147; 36; 187; 149; 130; 131; 3; 1; 118; 133; 9; 64; 0; 0; 0; 1; 68; 1; 192; 243; 192; 2; 16; 0; 0; 0; 1; 38; 1; 175; 9; 64; 243; 184; 213; 57; 186; 31; 228; 166; 8; 92; 110; 177; 143; 0; 56; 241; 166; 252; 241; 64; 4; 58; 134; 203; 144; 116; 206; 240; 70; 97; 147; 114; 214; 252; 53; 227; 197; 111; 10; 196; 158; 39; 196; 219; 227; 251; 56; 152; 208; 139; 213; 185; 185; 21; 180; 146; 73; 151; 229; 61; 54; 77; 69; 50; 92; 230; 137; 83; 118; 206; 187; 131; 161; 39; 53; 251; 243; 199; 212; 133; 50; 55; 148; 9; 236; 16].
Definition bitstream_parser_buffer0 : list Z := [0; 0; 0; 1; 64; 1; 12; 1; 255; 255; 1; 96; 0; 0; 3; 0; 176; 0; 0; 3; 0; 0; 3; 0; 93; 172; 89; 0; 0; 0; 1; 66; 1; 1; 1; 96; 0; 0; 3; 0; 176; 0; 0; 3; 0; 0; 3; 0; 93; 160; 2; 128; 128; 46; 31; 19; 150; 187; 147; 36; 187; 149; 130; 131; 3; 1; 118; 133; 9; 64; 0; 0; 0; 1; 68; 1; 192; 243; 192; 2; 16; 0; 0; 0; 1; 38; 1; 175; 9; 64; 251; 39; 91; 253; 93; 194; 77; 232; 178; 15; 205; 104; 219; 195; 65; 18; 46; 19; 141; 223; 102; 201; 31; 170; 212; 155; 141; 221; 226; 161; 218; 46; 189; 83; 116; 209; 187; 222; 84; 143; 165; 231; 47; 204; 247; 152; 214; 51; 213; 6; 1; 82; 132; 188; 167; 230; 2; 127; 233; 80; 10; 154; 96; 137; 160; 192; 180; 109; 96; 83; 229; 221; 147; 222; 3; 255; 168; 176; 77; 39; 165; 130; 186; 172; 99; 139; 111; 105; 127; 147; 178; 227; 12; 253; 41; 68; 66; 167; 19; 233; 236; 55; 187; 147; 224; 98; 169; 164; 68; 69; 89; 22; 246; 182; 91; 58; 219; 195].
Definition bitstream_parser_buffer1 : list Z := [0; 0; 0; 1; 2; 1; 208; 15; 228; 22; 128; 244; 90; 180; 133; 107; 23; 170; 193; 148; 168; 159; 50; 17; 228; 68; 165; 253; 231; 128; 218; 234; 33; 76; 8; 35; 234; 88; 21; 163; 76; 26; 179; 128; 155; 99; 80; 17; 117; 154; 204; 6; 9; 105; 151; 117; 160; 2; 36; 34; 28; 6; 165; 105; 110; 186; 156; 121; 88; 30; 82; 168; 38; 254; 152; 111; 101; 238; 87; 16; 79; 103; 232; 67; 222; 142; 230; 64; 40; 54; 69; 6; 94; 232; 128; 52; 192; 6; 242; 22; 75; 120; 95; 152; 86; 204; 217; 89; 122; 243; 48; 93; 169; 199; 132; 74; 224; 22; 191; 7; 36; 50; 101; 189; 57; 226; 48; 191; 39; 211; 97; 37; 2; 174; 90; 161; 8; 155; 144; 20; 42; 9; 209; 74].
Definition bitstream_parser_buffer2 : list Z := [0; 0; 0; 1; 2; 1; 208; 23; 228; 8; 32; 252; 193; 245; 136; 64; 207; 240; 0; 0; 3; 0; 5; 224; 70; 157; 144; 161; 152; 67; 40; 72; 233; 198; 243; 17; 235; 41; 25; 205; 52; 133; 139; 197; 33; 245; 90; 70; 215; 90; 165; 52; 166; 173; 145; 214; 94; 113; 24; 148; 233; 68; 42; 132; 4; 44; 128; 176; 180; 3; 240; 160; 230; 230; 20; 179; 242; 250; 87; 94; 41; 209; 225; 77; 155; 23; 234; 248; 92; 213; 10; 114; 230; 94; 66; 237; 221; 190; 100; 56; 4; 93; 132; 199; 2; 176; 80; 33; 63; 2; 137; 131].
Example T_bitstream_parser_TestSampleBitstream :
  match ParseBitstream with_checksum bitstream_parser_buffer empty_state with Done (x1, st2) =>
  ((Z.of_nat (length (bs_units x1)) =? 4)) &&
  (match nth_error (bs_units x1) 0 with Some x3 => (forbidden_zero_bit (nu_header x3) =? 0) | None => false end) &&
  (match nth_error (bs_units x1) 0 with Some x4 => (nal_unit_type (nu_header x4) =? 32) | None => false end) &&
  (match nth_error (bs_units x1) 0 with Some x5 => (nuh_layer_id (nu_header x5) =? 0) | None => false end) &&
  (match nth_error (bs_units x1) 0 with Some x6 => (nuh_temporal_id_plus1 (nu_header x6) =? 1) | None => false end) &&
  (match nth_error (bs_units x1) 0 with Some x8 => match nu_checksum x8 with Some x7 => (x7 =? 3215082900) | None => false end | None => false end) &&
  (match nth_error (bs_units x1) 1 with Some x9 => (forbidden_zero_bit (nu_header x9) =? 0) | None => false end) &&
  (match nth_error (bs_units x1) 1 with Some x10 => (nal_unit_type (nu_header x10) =? 33) | None => false end) &&
  (match nth_error (bs_units x1) 1 with Some x11 => (nuh_layer_id (nu_header x11) =? 0) | None => false end) &&
  (match nth_error (bs_units x1) 1 with Some x12 => (nuh_temporal_id_plus1 (nu_header x12) =? 1) | None => false end) &&
  (match nth_error (bs_units x1) 1 with Some x14 => match nu_checksum x14 with Some x13 => (x13 =? 4047517) | None => false end | None => false end) &&
  (match nth_error (bs_units x1) 2 with Some x15 => (forbidden_zero_bit (nu_header x15) =? 0) | None => false end) &&
  (match nth_error (bs_units x1) 2 with Some x16 => (nal_unit_type (nu_header x16) =? 34) | None => false end) &&
  (match nth_error (bs_units x1) 2 with Some x17 => (nuh_layer_id (nu_header x17) =? 0) | None => false end) &&
  (match nth_error (bs_units x1) 2 with Some x18 => (nuh_temporal_id_plus1 (nu_header x18) =? 1) | None => false end) &&
  (match nth_error (bs_units x1) 2 with Some x20 => match nu_checksum x20 with Some x19 => (x19 =? 4227608331) | None => false end | None => false end) &&
  (match nth_error (bs_units x1) 3 with Some x21 => (forbidden_zero_bit (nu_header x21) =? 0) | None => false end) &&
  (match nth_error (bs_units x1) 3 with Some x22 => (nal_unit_type (nu_header x22) =? 19) | None => false end) &&
  (match nth_error (bs_units x1) 3 with Some x23 => (nuh_layer_id (nu_header x23) =? 0) | None => false end) &&
  (match nth_error (bs_units x1) 3 with Some x24 => (nuh_temporal_id_plus1 (nu_header x24) =? 1) | None => false end) &&
  (match nth_error (bs_units x1) 3 with Some x26 => match nu_checksum x26 with Some x25 => (x25 =? 1820855524) | None => false end | None => false end) &&
  true | _ => false end = true.
Proof. vm_compute. reflexivity. Qed.
Example T_bitstream_parser_TestSampleBitstreamAlt :
  match ParseBitstreamNoState with_checksum bitstream_parser_buffer with Done x1 =>
  ((Z.of_nat (length (bs_units x1)) =? 4)) &&
  (match nth_error (bs_units x1) 0 with Some x2 => (nu_offset x2 =? 4) | None => false end) &&
  (match nth_error (bs_units x1) 0 with Some x3 => (nu_length x3 =? 23) | None => false end) &&
  (match nth_error (bs_units x1) 0 with Some x4 => (nu_parsed_length x4 =? 20) | None => false end) &&
  (match nth_error (bs_units x1) 0 with Some x6 => match nu_checksum x6 with Some x5 => (x5 =? 3215082900) | None => false end | None => false end) &&
  (match nth_error (bs_units x1) 1 with Some x7 => (nu_offset x7 =? 31) | None => false end) &&
  (match nth_error (bs_units x1) 1 with Some x8 => (nu_length x8 =? 39) | None => false end) &&
  (match nth_error (bs_units x1) 1 with Some x9 => (nu_parsed_length x9 =? 36) | None => false end) &&
  (match nth_error (bs_units x1) 1 with Some x11 => match nu_checksum x11 with Some x10 => (x10 =? 4047517) | None => false end | None => false end) &&
  (match nth_error (bs_units x1) 2 with Some x12 => (nu_offset x12 =? 74) | None => false end) &&
  (match nth_error (bs_units x1) 2 with Some x13 => (nu_length x13 =? 7) | None => false end) &&
  (match nth_error (bs_units x1) 2 with Some x14 => (nu_parsed_length x14 =? 7) | None => false end) &&
  (match nth_error (bs_units x1) 2 with Some x16 => match nu_checksum x16 with Some x15 => (x15 =? 4227608331) | None => false end | None => false end) &&
  (match nth_error (bs_units x1) 3 with Some x17 => (nu_offset x17 =? 85) | None => false end) &&
  (match nth_error (bs_units x1) 3 with Some x18 => (nu_length x18 =? 91) | None => false end) &&
  (match nth_error (bs_units x1) 3 with Some x19 => (nu_parsed_length x19 =? 5) | None => false end) &&
  (match nth_error (bs_units x1) 3 with Some x21 => match nu_checksum x21 with Some x20 => (x20 =? 1820855524) | None => false end | None => false end) &&
  true | _ => false end = true.
Proof. vm_compute. reflexivity. Qed.
Example T_bitstream_parser_TestMultipleBuffers :
  match ParseBitstream with_checksum bitstream_parser_buffer0 empty_state with Done (x1, st2) =>
  ((Z.of_nat (length (bs_units x1)) =? 4)) &&
  (match nth_error (bs_units x1) 0 with Some x3 => (forbidden_zero_bit (nu_header x3) =? 0) | None => false end) &&
  (match nth_error (bs_units x1) 0 with Some x4 => (nal_unit_type (nu_header x4) =? 32) | None => false end) &&
  (match nth_error (bs_units x1) 0 with Some x5 => (nuh_layer_id (nu_header x5) =? 0) | None => false end) &&
  (match nth_error (bs_units x1) 0 with Some x6 => (nuh_temporal_id_plus1 (nu_header x6) =? 1) | None => false end) &&
  (match nth_error (bs_units x1) 0 with Some x8 => match nu_checksum x8 with Some x7 => (x7 =? 3215082900) | None => false end | None => false end) &&
  (match nth_error (bs_units x1) 1 with Some x9 => (forbidden_zero_bit (nu_header x9) =? 0) | None => false end) &&
  (match nth_error (bs_units x1) 1 with Some x10 => (nal_unit_type (nu_header x10) =? 33) | None => false end) &&
  (match nth_error (bs_units x1) 1 with Some x11 => (nuh_layer_id (nu_header x11) =? 0) | None => false end) &&
  (match nth_error (bs_units x1) 1 with Some x12 => (nuh_temporal_id_plus1 (nu_header x12) =? 1) | None => false end) &&
  (match nth_error (bs_units x1) 1 with Some x14 => match nu_checksum x14 with Some x13 => (x13 =? 4047517) | None => false end | None => false end) &&
  (match nth_error (bs_units x1) 2 with Some x15 => (forbidden_zero_bit (nu_header x15) =? 0) | None => false end) &&
  (match nth_error (bs_units x1) 2 with Some x16 => (nal_unit_type (nu_header x16) =? 34) | None => false end) &&
  (match nth_error (bs_units x1) 2 with Some x17 => (nuh_layer_id (nu_header x17) =? 0) | None => false end) &&
  (match nth_error (bs_units x1) 2 with Some x18 => (nuh_temporal_id_plus1 (nu_header x18) =? 1) | None => false end) &&
  (match nth_error (bs_units x1) 2 with Some x20 => match nu_checksum x20 with Some x19 => (x19 =? 4227608331) | None => false end | None => false end) &&
  (match nth_error (bs_units x1) 3 with Some x21 => (forbidden_zero_bit (nu_header x21) =? 0) | None => false end) &&
  (match nth_error (bs_units x1) 3 with Some x22 => (nal_unit_type (nu_header x22) =? 19) | None => false end) &&
  (match nth_error (bs_units x1) 3 with Some x23 => (nuh_layer_id (nu_header x23) =? 0) | None => false end) &&
  (match nth_error (bs_units x1) 3 with Some x24 => (nuh_temporal_id_plus1 (nu_header x24) =? 1) | None => false end) &&
  (match nth_error (bs_units x1) 3 with Some x26 => match nu_checksum x26 with Some x25 => (x25 =? 156543303) | None => false end | None => false end) &&
  match ParseBitstream with_checksum bitstream_parser_buffer1 st2 with Done (x27, st28) =>
  ((Z.of_nat (length (bs_units x27)) =? 1)) &&
  (match nth_error (bs_units x27) 0 with Some x29 => (forbidden_zero_bit (nu_header x29) =? 0) | None => false end) &&
  (match nth_error (bs_units x27) 0 with Some x30 => (nal_unit_type (nu_header x30) =? 1) | None => false end) &&
  (match nth_error (bs_units x27) 0 with Some x31 => (nuh_layer_id (nu_header x31) =? 0) | None => false end) &&
  (match nth_error (bs_units x27) 0 with Some x32 => (nuh_temporal_id_plus1 (nu_header x32) =? 1) | None => false end) &&
  (match nth_error (bs_units x27) 0 with Some x34 => match nu_checksum x34 with Some x33 => (x33 =? 3653214696) | None => false end | None => false end) &&
  match ParseBitstream with_checksum bitstream_parser_buffer2 st28 with Done (x35, st36) =>
  ((Z.of_nat (length (bs_units x35)) =? 1)) &&
  (match nth_error (bs_units x35) 0 with Some x37 => (forbidden_zero_bit (nu_header x37) =? 0) | None => false end) &&
  (match nth_error (bs_units x35) 0 with Some x38 => (nal_unit_type (nu_header x38) =? 1) | None => false end) &&
  (match nth_error (bs_units x35) 0 with Some x39 => (nuh_layer_id (nu_header x39) =? 0) | None => false end) &&
  (match nth_error (bs_units x35) 0 with Some x40 => (nuh_temporal_id_plus1 (nu_header x40) =? 1) | None => false end) &&
  (match nth_error (bs_units x35) 0 with Some x42 => match nu_checksum x42 with Some x41 => (x41 =? 2183855900) | None => false end | None => false end) &&
  true | _ => false end | _ => false end | _ => false end = true.
Proof. vm_compute. reflexivity. Qed.
Example T_bitstream_parser_TestMultipleBuffersGetSliceQpY :
  match GetSliceQpY bitstream_parser_buffer0 empty_state with Done (x1, st2) =>
  ((Z.of_nat (length (x1)) =? 1)) &&
  (match nth_error (x1) 0 with Some x3 => (x3 =? 35) | None => false end) &&
  match GetSliceQpY bitstream_parser_buffer1 st2 with Done (x4, st5) =>
  ((Z.of_nat (length (x4)) =? 1)) &&
  (match nth_error (x4) 0 with Some x6 => (x6 =? 37) | None => false end) &&
  match GetSliceQpY bitstream_parser_buffer2 st5 with Done (x7, st8) =>
  ((Z.of_nat (length (x7)) =? 1)) &&
  (match nth_error (x7) 0 with Some x9 => (x9 =? 42) | None => false end) &&
  true | _ => false end | _ => false end | _ => false end = true.
Proof. vm_compute. reflexivity. Qed.
(** * test/h265_common_unittest.cc *)
Example T_common_TestIsSliceSegment :
  (IsSliceSegment 0) &&
  (negb (IsSliceSegment 32)) &&
  true = true.
Proof. vm_compute. reflexivity. Qed.
Example T_common_TestIsNalUnitTypeVcl :
  (IsNalUnitTypeVcl 16) &&
  (IsNalUnitTypeVcl 16) &&
  (negb (IsNalUnitTypeVcl 32)) &&
  (negb (IsNalUnitTypeVcl 43)) &&
  true = true.
Proof. vm_compute. reflexivity. Qed.
Example T_common_TestIsNalUnitTypeNonVcl :
  (IsNalUnitTypeNonVcl 32) &&
  (IsNalUnitTypeNonVcl 43) &&
  (negb (IsNalUnitTypeNonVcl 16)) &&
  true = true.
Proof. vm_compute. reflexivity. Qed.
Example T_common_TestIsNalUnitTypeUnspecified :
  (IsNalUnitTypeUnspecified 50) &&
  (IsNalUnitTypeUnspecified 63) &&
  (negb (IsNalUnitTypeUnspecified 16)) &&
  (negb (IsNalUnitTypeUnspecified 47)) &&
  true = true.
Proof. vm_compute. reflexivity. Qed.
Example T_common_more_rbsp_data_1 : match more_rbsp_data (mkBB [0; 0] 2 2 0) with Ok r b => Bool.eqb r false && (bb_byte b =? 2) && (bb_bit b =? 0) | _ => false end = true.
Proof. vm_compute. reflexivity. Qed.
Example T_common_more_rbsp_data_2 : match more_rbsp_data (mkBB [232; 67; 130; 146; 200; 176] 6 4 4) with Ok r b => Bool.eqb r true && (bb_byte b =? 4) && (bb_bit b =? 4) | _ => false end = true.
Proof. vm_compute. reflexivity. Qed.
Example T_common_more_rbsp_data_3 : match more_rbsp_data (mkBB [232; 67; 130; 146; 200; 128] 6 5 0) with Ok r b => Bool.eqb r false && (bb_byte b =? 5) && (bb_bit b =? 0) | _ => false end = true.
Proof. vm_compute. reflexivity. Qed.
Example T_common_more_rbsp_data_4 : match more_rbsp_data (mkBB [232; 67; 130; 146; 200; 136] 6 5 0) with Ok r b => Bool.eqb r true && (bb_byte b =? 5) && (bb_bit b =? 0) | _ => false end = true.
Proof. vm_compute. reflexivity. Qed.
Example T_common_more_rbsp_data_5 : match more_rbsp_data (mkBB [232; 67; 130; 146; 200; 192] 6 5 1) with Ok r b => Bool.eqb r false && (bb_byte b =? 5) && (bb_bit b =? 1) | _ => false end = true.
Proof. vm_compute. reflexivity. Qed.
Example T_common_more_rbsp_data_6 : match more_rbsp_data (mkBB [232; 67; 130; 146; 200; 64] 6 5 1) with Ok r b => Bool.eqb r false && (bb_byte b =? 5) && (bb_bit b =? 1) | _ => false end = true.
Proof. vm_compute. reflexivity. Qed.
Example T_common_more_rbsp_data_7 : match more_rbsp_data (mkBB [232; 67; 130; 146; 200; 0] 6 5 1) with Ok r b => Bool.eqb r true && (bb_byte b =? 5) && (bb_bit b =? 1) | _ => false end = true.
Proof. vm_compute. reflexivity. Qed.
Example T_common_more_rbsp_data_8 : match more_rbsp_data (mkBB [232; 67; 130; 146; 200; 72] 6 5 1) with Ok r b => Bool.eqb r true && (bb_byte b =? 5) && (bb_bit b =? 1) | _ => false end = true.
Proof. vm_compute. reflexivity. Qed.
Example T_common_more_rbsp_data_9 : match more_rbsp_data (mkBB [232; 67; 130; 146; 200; 24] 6 5 4) with Ok r b => Bool.eqb r false && (bb_byte b =? 5) && (bb_bit b =? 4) | _ => false end = true.
Proof. vm_compute. reflexivity. Qed.
Example T_common_more_rbsp_data_10 : match more_rbsp_data (mkBB [232; 67; 130; 146; 200; 8] 6 5 4) with Ok r b => Bool.eqb r false && (bb_byte b =? 5) && (bb_bit b =? 4) | _ => false end = true.
Proof. vm_compute. reflexivity. Qed.
Example T_common_more_rbsp_data_11 : match more_rbsp_data (mkBB [232; 67; 130; 146; 200; 0] 6 5 4) with Ok r b => Bool.eqb r true && (bb_byte b =? 5) && (bb_bit b =? 4) | _ => false end = true.
Proof. vm_compute. reflexivity. Qed.
Example T_common_more_rbsp_data_12 : match more_rbsp_data (mkBB [232; 67; 130; 146; 200; 2] 6 5 4) with Ok r b => Bool.eqb r true && (bb_byte b =? 5) && (bb_bit b =? 4) | _ => false end = true.
Proof. vm_compute. reflexivity. Qed.
Example T_common_more_rbsp_data_13 : match more_rbsp_data (mkBB [232; 67; 130; 146; 200; 1] 6 5 7) with Ok r b => Bool.eqb r false && (bb_byte b =? 5) && (bb_bit b =? 7) | _ => false end = true.
Proof. vm_compute. reflexivity. Qed.
Example T_common_more_rbsp_data_14 : match more_rbsp_data (mkBB [232; 67; 130; 146; 200; 0] 6 5 7) with Ok r b => Bool.eqb r true && (bb_byte b =? 5) && (bb_bit b =? 7) | _ => false end = true.
Proof. vm_compute. reflexivity. Qed.
(** * test/h265_configuration_box_parser_unittest.cc *)
Example T_configuration_box_parser_TestSampleConfigurationBox :
  let buffer_ := [1; 1; 96; 0; 0; 0; 128; 0; 0; 0; 0; 0; 120; 240; 0; 252; 253; 248; 248; 0; 0; 15; 3; 160; 0; 1; 0; 24; 64; 1; 12; 1; 255; 255; 1; 96; 0; 0; 3; 0; 128; 0; 0; 3; 0; 0; 3; 0; 120; 157; 192; 144; 161; 0; 1; 0; 39; 66; 1; 1; 1; 96; 0; 0; 3; 0; 128; 0; 0; 3; 0; 0; 3; 0; 120; 160; 3; 192; 128; 50; 22; 89; 222; 73; 27; 107; 128; 64; 0; 0; 250; 0; 0; 23; 112; 2; 162; 0; 1; 0; 6; 68; 1; 193; 115; 209; 137] in
  match ParseConfigurationBox default_options buffer_ empty_state with Done (Some x1, st2) =>
  ((general_profile_space (hv_header x1) =? 0)) &&
  ((general_tier_flag (hv_header x1) =? 0)) &&
  ((general_profile_idc (hv_header x1) =? 1)) &&
  (same (general_profile_compatibility_flags (hv_header x1)) [0; 1; 1; 0; 0; 0; 0; 0; 0; 0; 0; 0; 0; 0; 0; 0; 0; 0; 0; 0; 0; 0; 0; 0; 0; 0; 0; 0; 0; 0; 0; 0]) &&
  ((general_constraint_indicator_flags (hv_header x1) =? 140737488355328)) &&
  ((general_level_idc (hv_header x1) =? 120)) &&
  ((MRtp.min_spatial_segmentation_idc (hv_header x1) =? 0)) &&
  ((parallelismType (hv_header x1) =? 0)) &&
  ((hvcc_chroma_format_idc (hv_header x1) =? 1)) &&
  ((hvcc_bit_depth_luma_minus8 (hv_header x1) =? 0)) &&
  ((hvcc_bit_depth_chroma_minus8 (hv_header x1) =? 0)) &&
  ((avgFrameRate (hv_header x1) =? 0)) &&
  ((constantFrameRate (hv_header x1) =? 0)) &&
  ((numTemporalLayers (hv_header x1) =? 1)) &&
  ((temporalIdNested (hv_header x1) =? 1)) &&
  ((lengthSizeMinusOne (hv_header x1) =? 3)) &&
  ((numOfArrays (hv_header x1) =? 3)) &&
  (same (map array_completeness (hv_arrays x1)) [1; 1; 1]) &&
  (same (map NAL_unit_type (hv_arrays x1)) [32; 33; 34]) &&
  (same (map (fun a => Z.of_nat (length (nalus a))) (hv_arrays x1)) [1; 1; 1]) &&
  (match nth_error (map (fun a => map fst (nalus a)) (hv_arrays x1)) 0 with Some x3 => same (x3) [24] | None => false end) &&
  (match nth_error (map (fun a => map fst (nalus a)) (hv_arrays x1)) 1 with Some x4 => same (x4) [39] | None => false end) &&
  (match nth_error (map (fun a => map fst (nalus a)) (hv_arrays x1)) 2 with Some x5 => same (x5) [6] | None => false end) &&
  match nth_error (map (fun a => map snd (nalus a)) (hv_arrays x1)) 0 with Some x6 =>
  let x7 := nth_error (x6) 0 in
  (match x7 with Some x8 => match x8 with Some x9 => (forbidden_zero_bit (nu_header x9) =? 0) | None => false end | None => false end) &&
  (match x7 with Some x10 => match x10 with Some x11 => (nal_unit_type (nu_header x11) =? 32) | None => false end | None => false end) &&
  (match x7 with Some x12 => match x12 with Some x13 => (nuh_layer_id (nu_header x13) =? 0) | None => false end | None => false end) &&
  (match x7 with Some x14 => match x14 with Some x15 => (nuh_temporal_id_plus1 (nu_header x15) =? 1) | None => false end | None => false end) &&
  match x7 with Some x16 =>
  match x16 with Some x17 =>
  let x18 := np_vps (nu_payload x17) in
  (match x18 with Some x19 => (vps_video_parameter_set_id (fst x19) =? 0) | None => false end) &&
  (match x18 with Some x20 => (vps_base_layer_internal_flag (fst x20) =? 1) | None => false end) &&
  (match x18 with Some x21 => (vps_base_layer_available_flag (fst x21) =? 1) | None => false end) &&
  (match x18 with Some x22 => (vps_max_layers_minus1 (fst x22) =? 0) | None => false end) &&
  (match x18 with Some x23 => (vps_max_sub_layers_minus1 (fst x23) =? 0) | None => false end) &&
  (match x18 with Some x24 => (vps_temporal_id_nesting_flag (fst x24) =? 1) | None => false end) &&
  (match x18 with Some x25 => (vps_reserved_0xffff_16bits (fst x25) =? 65535) | None => false end) &&
  (match x18 with Some x26 => match ptl_general (vps_profile_tier_level (fst x26)) with Some x27 => (profile_space (x27) =? 0) | None => false end | None => false end) &&
  (match x18 with Some x28 => match ptl_general (vps_profile_tier_level (fst x28)) with Some x29 => (tier_flag (x29) =? 0) | None => false end | None => false end) &&
  (match x18 with Some x30 => match ptl_general (vps_profile_tier_level (fst x30)) with Some x31 => (profile_idc (x31) =? 1) | None => false end | None => false end) &&
  (match x18 with Some x32 => match ptl_general (vps_profile_tier_level (fst x32)) with Some x33 => same (profile_compatibility_flag (x33)) [0; 1; 1; 0; 0; 0; 0; 0; 0; 0; 0; 0; 0; 0; 0; 0; 0; 0; 0; 0; 0; 0; 0; 0; 0; 0; 0; 0; 0; 0; 0; 0] | None => false end | None => false end) &&
  (match x18 with Some x34 => match ptl_general (vps_profile_tier_level (fst x34)) with Some x35 => (progressive_source_flag (x35) =? 1) | None => false end | None => false end) &&
  (match x18 with Some x36 => match ptl_general (vps_profile_tier_level (fst x36)) with Some x37 => (interlaced_source_flag (x37) =? 0) | None => false end | None => false end) &&
  (match x18 with Some x38 => match ptl_general (vps_profile_tier_level (fst x38)) with Some x39 => (non_packed_constraint_flag (x39) =? 0) | None => false end | None => false end) &&
  (match x18 with Some x40 => match ptl_general (vps_profile_tier_level (fst x40)) with Some x41 => (frame_only_constraint_flag (x41) =? 0) | None => false end | None => false end) &&
  (match x18 with Some x42 => match ptl_general (vps_profile_tier_level (fst x42)) with Some x43 => (max_12bit_constraint_flag (x43) =? 0) | None => false end | None => false end) &&
  (match x18 with Some x44 => match ptl_general (vps_profile_tier_level (fst x44)) with Some x45 => (max_10bit_constraint_flag (x45) =? 0) | None => false end | None => false end) &&
  (match x18 with Some x46 => match ptl_general (vps_profile_tier_level (fst x46)) with Some x47 => (max_8bit_constraint_flag (x47) =? 0) | None => false end | None => false end) &&
  (match x18 with Some x48 => match ptl_general (vps_profile_tier_level (fst x48)) with Some x49 => (max_422chroma_constraint_flag (x49) =? 0) | None => false end | None => false end) &&
  (match x18 with Some x50 => match ptl_general (vps_profile_tier_level (fst x50)) with Some x51 => (max_420chroma_constraint_flag (x51) =? 0) | None => false end | None => false end) &&
  (match x18 with Some x52 => match ptl_general (vps_profile_tier_level (fst x52)) with Some x53 => (max_monochrome_constraint_flag (x53) =? 0) | None => false end | None => false end) &&
  (match x18 with Some x54 => match ptl_general (vps_profile_tier_level (fst x54)) with Some x55 => (intra_constraint_flag (x55) =? 0) | None => false end | None => false end) &&
  (match x18 with Some x56 => match ptl_general (vps_profile_tier_level (fst x56)) with Some x57 => (one_picture_only_constraint_flag (x57) =? 0) | None => false end | None => false end) &&
  (match x18 with Some x58 => match ptl_general (vps_profile_tier_level (fst x58)) with Some x59 => (lower_bit_rate_constraint_flag (x59) =? 0) | None => false end | None => false end) &&
  (match x18 with Some x60 => match ptl_general (vps_profile_tier_level (fst x60)) with Some x61 => (max_14bit_constraint_flag (x61) =? 0) | None => false end | None => false end) &&
  (match x18 with Some x62 => match ptl_general (vps_profile_tier_level (fst x62)) with Some x63 => (reserved_zero_33bits (x63) =? 0) | None => false end | None => false end) &&
  (match x18 with Some x64 => match ptl_general (vps_profile_tier_level (fst x64)) with Some x65 => (reserved_zero_34bits (x65) =? 0) | None => false end | None => false end) &&
  (match x18 with Some x66 => match ptl_general (vps_profile_tier_level (fst x66)) with Some x67 => (reserved_zero_43bits (x67) =? 0) | None => false end | None => false end) &&
  (match x18 with Some x68 => match ptl_general (vps_profile_tier_level (fst x68)) with Some x69 => (inbld_flag (x69) =? 0) | None => false end | None => false end) &&
  (match x18 with Some x70 => match ptl_general (vps_profile_tier_level (fst x70)) with Some x71 => (reserved_zero_bit (x71) =? 0) | None => false end | None => false end) &&
  (match x18 with Some x72 => (ptl_general_level_idc (vps_profile_tier_level (fst x72)) =? 120) | None => false end) &&
  (match x18 with Some x73 => (Z.of_nat (length (map fst (ptl_sub_layer_flags (vps_profile_tier_level (fst x73))))) =? 0) | None => false end) &&
  (match x18 with Some x74 => (Z.of_nat (length (map snd (ptl_sub_layer_flags (vps_profile_tier_level (fst x74))))) =? 0) | None => false end) &&
  (match x18 with Some x75 => (Z.of_nat (length (ptl_reserved_zero_2bits (vps_profile_tier_level (fst x75)))) =? 0) | None => false end) &&
  (match x18 with Some x76 => (Z.of_nat (length (map snd (ptl_sub_layers (vps_profile_tier_level (fst x76))))) =? 0) | None => false end) &&
  (match x18 with Some x77 => (vps_sub_layer_ordering_info_present_flag (fst x77) =? 1) | None => false end) &&
  (match x18 with Some x78 => same (map max_dec_pic_buffering_minus1 (vps_ordering (fst x78))) [6] | None => false end) &&
  (match x18 with Some x79 => same (map max_num_reorder_pics (vps_ordering (fst x79))) [2] | None => false end) &&
  (match x18 with Some x80 => same (map max_latency_increase_plus1 (vps_ordering (fst x80))) [0] | None => false end) &&
  (match x18 with Some x81 => (vps_max_layer_id (fst x81) =? 0) | None => false end) &&
  (match x18 with Some x82 => (vps_num_layer_sets_minus1 (fst x82) =? 0) | None => false end) &&
  (match x18 with Some x83 => (Z.of_nat (length (layer_id_included_flag (fst x83))) =? 0) | None => false end) &&
  (match x18 with Some x84 => (vps_timing_info_present_flag (fst x84) =? 0) | None => false end) &&
  (match x18 with Some x85 => (vps_num_units_in_tick (fst x85) =? 0) | None => false end) &&
  (match x18 with Some x86 => (vps_time_scale (fst x86) =? 0) | None => false end) &&
  (match x18 with Some x87 => (vps_poc_proportional_to_timing_flag (fst x87) =? 0) | None => false end) &&
  (match x18 with Some x88 => (vps_num_ticks_poc_diff_one_minus1 (fst x88) =? 0) | None => false end) &&
  (match x18 with Some x89 => (vps_num_hrd_parameters (fst x89) =? 0) | None => false end) &&
  (match x18 with Some x90 => (Z.of_nat (length (map hrd_layer_set_idx (vps_hrds (fst x90)))) =? 0) | None => false end) &&
  (match x18 with Some x91 => (Z.of_nat (length (map cprms_present_flag (vps_hrds (fst x91)))) =? 0) | None => false end) &&
  (match x18 with Some x92 => (vps_extension_flag (fst x92) =? 0) | None => false end) &&
  (match x18 with Some x93 => (snd x93 =? 0) | None => false end) &&
  match nth_error (map (fun a => map snd (nalus a)) (hv_arrays x1)) 1 with Some x94 =>
  let x95 := nth_error (x94) 0 in
  (match x95 with Some x96 => match x96 with Some x97 => (forbidden_zero_bit (nu_header x97) =? 0) | None => false end | None => false end) &&
  (match x95 with Some x98 => match x98 with Some x99 => (nal_unit_type (nu_header x99) =? 33) | None => false end | None => false end) &&
  (match x95 with Some x100 => match x100 with Some x101 => (nuh_layer_id (nu_header x101) =? 0) | None => false end | None => false end) &&
  (match x95 with Some x102 => match x102 with Some x103 => (nuh_temporal_id_plus1 (nu_header x103) =? 1) | None => false end | None => false end) &&
  match x95 with Some x104 =>
  match x104 with Some x105 =>
  let x106 := np_sps (nu_payload x105) in
  (match x106 with Some x107 => (sps_video_parameter_set_id (fst x107) =? 0) | None => false end) &&
  (match x106 with Some x108 => (sps_max_sub_layers_minus1 (fst x108) =? 0) | None => false end) &&
  (match x106 with Some x109 => (sps_temporal_id_nesting_flag (fst x109) =? 1) | None => false end) &&
  (match x106 with Some x110 => match ptl_general (sps_profile_tier_level (fst x110)) with Some x111 => (profile_space (x111) =? 0) | None => false end | None => false end) &&
  (match x106 with Some x112 => match ptl_general (sps_profile_tier_level (fst x112)) with Some x113 => (tier_flag (x113) =? 0) | None => false end | None => false end) &&
  (match x106 with Some x114 => match ptl_general (sps_profile_tier_level (fst x114)) with Some x115 => (profile_idc (x115) =? 1) | None => false end | None => false end) &&
  (match x106 with Some x116 => match ptl_general (sps_profile_tier_level (fst x116)) with Some x117 => same (profile_compatibility_flag (x117)) [0; 1; 1; 0; 0; 0; 0; 0; 0; 0; 0; 0; 0; 0; 0; 0; 0; 0; 0; 0; 0; 0; 0; 0; 0; 0; 0; 0; 0; 0; 0; 0] | None => false end | None => false end) &&
  (match x106 with Some x118 => match ptl_general (sps_profile_tier_level (fst x118)) with Some x119 => (progressive_source_flag (x119) =? 1) | None => false end | None => false end) &&
  (match x106 with Some x120 => match ptl_general (sps_profile_tier_level (fst x120)) with Some x121 => (interlaced_source_flag (x121) =? 0) | None => false end | None => false end) &&
  (match x106 with Some x122 => match ptl_general (sps_profile_tier_level (fst x122)) with Some x123 => (non_packed_constraint_flag (x123) =? 0) | None => false end | None => false end) &&
  (match x106 with Some x124 => match ptl_general (sps_profile_tier_level (fst x124)) with Some x125 => (frame_only_constraint_flag (x125) =? 0) | None => false end | None => false end) &&
  (match x106 with Some x126 => match ptl_general (sps_profile_tier_level (fst x126)) with Some x127 => (max_12bit_constraint_flag (x127) =? 0) | None => false end | None => false end) &&
  (match x106 with Some x128 => match ptl_general (sps_profile_tier_level (fst x128)) with Some x129 => (max_10bit_constraint_flag (x129) =? 0) | None => false end | None => false end) &&
  (match x106 with Some x130 => match ptl_general (sps_profile_tier_level (fst x130)) with Some x131 => (max_8bit_constraint_flag (x131) =? 0) | None => false end | None => false end) &&
  (match x106 with Some x132 => match ptl_general (sps_profile_tier_level (fst x132)) with Some x133 => (max_422chroma_constraint_flag (x133) =? 0) | None => false end | None => false end) &&
  (match x106 with Some x134 => match ptl_general (sps_profile_tier_level (fst x134)) with Some x135 => (max_420chroma_constraint_flag (x135) =? 0) | None => false end | None => false end) &&
  (match x106 with Some x136 => match ptl_general (sps_profile_tier_level (fst x136)) with Some x137 => (max_monochrome_constraint_flag (x137) =? 0) | None => false end | None => false end) &&
  (match x106 with Some x138 => match ptl_general (sps_profile_tier_level (fst x138)) with Some x139 => (intra_constraint_flag (x139) =? 0) | None => false end | None => false end) &&
  (match x106 with Some x140 => match ptl_general (sps_profile_tier_level (fst x140)) with Some x141 => (one_picture_only_constraint_flag (x141) =? 0) | None => false end | None => false end) &&
  (match x106 with Some x142 => match ptl_general (sps_profile_tier_level (fst x142)) with Some x143 => (lower_bit_rate_constraint_flag (x143) =? 0) | None => false end | None => false end) &&
  (match x106 with Some x144 => match ptl_general (sps_profile_tier_level (fst x144)) with Some x145 => (max_14bit_constraint_flag (x145) =? 0) | None => false end | None => false end) &&
  (match x106 with Some x146 => match ptl_general (sps_profile_tier_level (fst x146)) with Some x147 => (reserved_zero_33bits (x147) =? 0) | None => false end | None => false end) &&
  (match x106 with Some x148 => match ptl_general (sps_profile_tier_level (fst x148)) with Some x149 => (reserved_zero_34bits (x149) =? 0) | None => false end | None => false end) &&
  (match x106 with Some x150 => match ptl_general (sps_profile_tier_level (fst x150)) with Some x151 => (reserved_zero_43bits (x151) =? 0) | None => false end | None => false end) &&
  (match x106 with Some x152 => match ptl_general (sps_profile_tier_level (fst x152)) with Some x153 => (inbld_flag (x153) =? 0) | None => false end | None => false end) &&
  (match x106 with Some x154 => match ptl_general (sps_profile_tier_level (fst x154)) with Some x155 => (reserved_zero_bit (x155) =? 0) | None => false end | None => false end) &&
  (match x106 with Some x156 => (ptl_general_level_idc (sps_profile_tier_level (fst x156)) =? 120) | None => false end) &&
  (match x106 with Some x157 => (Z.of_nat (length (map fst (ptl_sub_layer_flags (sps_profile_tier_level (fst x157))))) =? 0) | None => false end) &&
  (match x106 with Some x158 => (Z.of_nat (length (map snd (ptl_sub_layer_flags (sps_profile_tier_level (fst x158))))) =? 0) | None => false end) &&
  (match x106 with Some x159 => (Z.of_nat (length (ptl_reserved_zero_2bits (sps_profile_tier_level (fst x159)))) =? 0) | None => false end) &&
  (match x106 with Some x160 => (Z.of_nat (length (map snd (ptl_sub_layers (sps_profile_tier_level (fst x160))))) =? 0) | None => false end) &&
  (match x106 with Some x161 => (sps_seq_parameter_set_id (fst x161) =? 0) | None => false end) &&
  (match x106 with Some x162 => (chroma_format_idc (fst x162) =? 1) | None => false end) &&
  (match x106 with Some x163 => (pic_width_in_luma_samples (fst x163) =? 1920) | None => false end) &&
  (match x106 with Some x164 => (pic_height_in_luma_samples (fst x164) =? 800) | None => false end) &&
  (match x106 with Some x165 => (conformance_window_flag (fst x165) =? 0) | None => false end) &&
  (match x106 with Some x166 => (conf_win_left_offset (fst x166) =? 0) | None => false end) &&
  (match x106 with Some x167 => (conf_win_right_offset (fst x167) =? 0) | None => false end) &&
  (match x106 with Some x168 => (conf_win_top_offset (fst x168) =? 0) | None => false end) &&
  (match x106 with Some x169 => (conf_win_bottom_offset (fst x169) =? 0) | None => false end) &&
  (match x106 with Some x170 => (bit_depth_luma_minus8 (fst x170) =? 0) | None => false end) &&
  (match x106 with Some x171 => (bit_depth_chroma_minus8 (fst x171) =? 0) | None => false end) &&
  (match x106 with Some x172 => (log2_max_pic_order_cnt_lsb_minus4 (fst x172) =? 4) | None => false end) &&
  (match x106 with Some x173 => (sps_sub_layer_ordering_info_present_flag (fst x173) =? 1) | None => false end) &&
  (match x106 with Some x174 => same (map max_dec_pic_buffering_minus1 (sps_ordering (fst x174))) [6] | None => false end) &&
  (match x106 with Some x175 => same (map max_num_reorder_pics (sps_ordering (fst x175))) [2] | None => false end) &&
  (match x106 with Some x176 => same (map max_latency_increase_plus1 (sps_ordering (fst x176))) [0] | None => false end) &&
  (match x106 with Some x177 => (log2_min_luma_coding_block_size_minus3 (fst x177) =? 0) | None => false end) &&
  (match x106 with Some x178 => (log2_diff_max_min_luma_coding_block_size (fst x178) =? 3) | None => false end) &&
  (match x106 with Some x179 => (log2_min_luma_transform_block_size_minus2 (fst x179) =? 0) | None => false end) &&
  (match x106 with Some x180 => (log2_diff_max_min_luma_transform_block_size (fst x180) =? 3) | None => false end) &&
  (match x106 with Some x181 => (max_transform_hierarchy_depth_inter (fst x181) =? 2) | None => false end) &&
  (match x106 with Some x182 => (max_transform_hierarchy_depth_intra (fst x182) =? 2) | None => false end) &&
  (match x106 with Some x183 => (scaling_list_enabled_flag (fst x183) =? 0) | None => false end) &&
  (match x106 with Some x184 => (amp_enabled_flag (fst x184) =? 1) | None => false end) &&
  (match x106 with Some x185 => (sample_adaptive_offset_enabled_flag (fst x185) =? 1) | None => false end) &&
  (match x106 with Some x186 => (pcm_enabled_flag (fst x186) =? 0) | None => false end) &&
  (match x106 with Some x187 => (num_short_term_ref_pic_sets (fst x187) =? 0) | None => false end) &&
  (match x106 with Some x188 => match sps_vui_parameters (fst x188) with Some x189 => (aspect_ratio_info_present_flag (x189) =? 0) | None => false end | None => false end) &&
  (match x106 with Some x190 => match sps_vui_parameters (fst x190) with Some x191 => (overscan_info_present_flag (x191) =? 0) | None => false end | None => false end) &&
  (match x106 with Some x192 => match sps_vui_parameters (fst x192) with Some x193 => (video_signal_type_present_flag (x193) =? 0) | None => false end | None => false end) &&
  (match x106 with Some x194 => match sps_vui_parameters (fst x194) with Some x195 => (video_format (x195) =? 0) | None => false end | None => false end) &&
  (match x106 with Some x196 => match sps_vui_parameters (fst x196) with Some x197 => (video_full_range_flag (x197) =? 0) | None => false end | None => false end) &&
  (match x106 with Some x198 => match sps_vui_parameters (fst x198) with Some x199 => (colour_description_present_flag (x199) =? 0) | None => false end | None => false end) &&
  (match x106 with Some x200 => match sps_vui_parameters (fst x200) with Some x201 => (colour_primaries (x201) =? 0) | None => false end | None => false end) &&
  (match x106 with Some x202 => match sps_vui_parameters (fst x202) with Some x203 => (transfer_characteristics (x203) =? 0) | None => false end | None => false end) &&
  (match x106 with Some x204 => match sps_vui_parameters (fst x204) with Some x205 => (matrix_coeffs (x205) =? 0) | None => false end | None => false end) &&
  (match x106 with Some x206 => match sps_vui_parameters (fst x206) with Some x207 => (chroma_loc_info_present_flag (x207) =? 0) | None => false end | None => false end) &&
  (match x106 with Some x208 => match sps_vui_parameters (fst x208) with Some x209 => (neutral_chroma_indication_flag (x209) =? 0) | None => false end | None => false end) &&
  (match x106 with Some x210 => match sps_vui_parameters (fst x210) with Some x211 => (field_seq_flag (x211) =? 0) | None => false end | None => false end) &&
  (match x106 with Some x212 => match sps_vui_parameters (fst x212) with Some x213 => (frame_field_info_present_flag (x213) =? 0) | None => false end | None => false end) &&
  (match x106 with Some x214 => match sps_vui_parameters (fst x214) with Some x215 => (default_display_window_flag (x215) =? 0) | None => false end | None => false end) &&
  (match x106 with Some x216 => match sps_vui_parameters (fst x216) with Some x217 => (vui_timing_info_present_flag (x217) =? 1) | None => false end | None => false end) &&
  (match x106 with Some x218 => match sps_vui_parameters (fst x218) with Some x219 => (vui_num_units_in_tick (x219) =? 1000) | None => false end | None => false end) &&
  (match x106 with Some x220 => match sps_vui_parameters (fst x220) with Some x221 => (vui_time_scale (x221) =? 24000) | None => false end | None => false end) &&
  (match x106 with Some x222 => match sps_vui_parameters (fst x222) with Some x223 => (vui_poc_proportional_to_timing_flag (x223) =? 0) | None => false end | None => false end) &&
  (match x106 with Some x224 => match sps_vui_parameters (fst x224) with Some x225 => (vui_num_ticks_poc_diff_one_minus1 (x225) =? 0) | None => false end | None => false end) &&
  (match x106 with Some x226 => match sps_vui_parameters (fst x226) with Some x227 => (bitstream_restriction_flag (x227) =? 0) | None => false end | None => false end) &&
  (match x106 with Some x228 => match sps_vui_parameters (fst x228) with Some x229 => (tiles_fixed_structure_flag (x229) =? 0) | None => false end | None => false end) &&
  (match x106 with Some x230 => match sps_vui_parameters (fst x230) with Some x231 => (motion_vectors_over_pic_boundaries_flag (x231) =? 0) | None => false end | None => false end) &&
  (match x106 with Some x232 => match sps_vui_parameters (fst x232) with Some x233 => (restricted_ref_pic_lists_flag (x233) =? 0) | None => false end | None => false end) &&
  (match x106 with Some x234 => match sps_vui_parameters (fst x234) with Some x235 => (MSyntaxA.min_spatial_segmentation_idc x235 =? 0) | None => false end | None => false end) &&
  (match x106 with Some x236 => match sps_vui_parameters (fst x236) with Some x237 => (max_bytes_per_pic_denom (x237) =? 0) | None => false end | None => false end) &&
  (match x106 with Some x238 => match sps_vui_parameters (fst x238) with Some x239 => (max_bits_per_min_cu_denom (x239) =? 0) | None => false end | None => false end) &&
  (match x106 with Some x240 => match sps_vui_parameters (fst x240) with Some x241 => (log2_max_mv_length_horizontal (x241) =? 0) | None => false end | None => false end) &&
  (match x106 with Some x242 => match sps_vui_parameters (fst x242) with Some x243 => (log2_max_mv_length_vertical (x243) =? 0) | None => false end | None => false end) &&
  (match x106 with Some x244 => (sps_extension_present_flag (fst x244) =? 0) | None => false end) &&
  (match x106 with Some x245 => (sps_range_extension_flag (fst x245) =? 0) | None => false end) &&
  (match x106 with Some x246 => (sps_multilayer_extension_flag (fst x246) =? 0) | None => false end) &&
  (match x106 with Some x247 => (sps_3d_extension_flag (fst x247) =? 0) | None => false end) &&
  (match x106 with Some x248 => (sps_scc_extension_flag (fst x248) =? 0) | None => false end) &&
  (match x106 with Some x249 => (sps_extension_4bits (fst x249) =? 0) | None => false end) &&
  match nth_error (map (fun a => map snd (nalus a)) (hv_arrays x1)) 2 with Some x250 =>
  let x251 := nth_error (x250) 0 in
  (match x251 with Some x252 => match x252 with Some x253 => (forbidden_zero_bit (nu_header x253) =? 0) | None => false end | None => false end) &&
  (match x251 with Some x254 => match x254 with Some x255 => (nal_unit_type (nu_header x255) =? 34) | None => false end | None => false end) &&
  (match x251 with Some x256 => match x256 with Some x257 => (nuh_layer_id (nu_header x257) =? 0) | None => false end | None => false end) &&
  (match x251 with Some x258 => match x258 with Some x259 => (nuh_temporal_id_plus1 (nu_header x259) =? 1) | None => false end | None => false end) &&
  match x251 with Some x260 =>
  match x260 with Some x261 =>
  let x262 := np_pps (nu_payload x261) in
  (match x262 with Some x263 => (pps_pic_parameter_set_id (fst x263) =? 0) | None => false end) &&
  (match x262 with Some x264 => (pps_seq_parameter_set_id (fst x264) =? 0) | None => false end) &&
  (match x262 with Some x265 => (dependent_slice_segments_enabled_flag (fst x265) =? 0) | None => false end) &&
  (match x262 with Some x266 => (output_flag_present_flag (fst x266) =? 0) | None => false end) &&
  (match x262 with Some x267 => (num_extra_slice_header_bits (fst x267) =? 0) | None => false end) &&
  (match x262 with Some x268 => (sign_data_hiding_enabled_flag (fst x268) =? 1) | None => false end) &&
  (match x262 with Some x269 => (cabac_init_present_flag (fst x269) =? 0) | None => false end) &&
  (match x262 with Some x270 => (num_ref_idx_l0_default_active_minus1 (fst x270) =? 0) | None => false end) &&
  (match x262 with Some x271 => (num_ref_idx_l1_default_active_minus1 (fst x271) =? 0) | None => false end) &&
  (match x262 with Some x272 => (init_qp_minus26 (fst x272) =? 0) | None => false end) &&
  (match x262 with Some x273 => (constrained_intra_pred_flag (fst x273) =? 0) | None => false end) &&
  (match x262 with Some x274 => (transform_skip_enabled_flag (fst x274) =? 0) | None => false end) &&
  (match x262 with Some x275 => (cu_qp_delta_enabled_flag (fst x275) =? 1) | None => false end) &&
  (match x262 with Some x276 => (diff_cu_qp_delta_depth (fst x276) =? 0) | None => false end) &&
  (match x262 with Some x277 => (pps_cb_qp_offset (fst x277) =? 0) | None => false end) &&
  (match x262 with Some x278 => (pps_cr_qp_offset (fst x278) =? 0) | None => false end) &&
  (match x262 with Some x279 => (pps_slice_chroma_qp_offsets_present_flag (fst x279) =? 0) | None => false end) &&
  (match x262 with Some x280 => (weighted_pred_flag (fst x280) =? 1) | None => false end) &&
  (match x262 with Some x281 => (weighted_bipred_flag (fst x281) =? 0) | None => false end) &&
  (match x262 with Some x282 => (transquant_bypass_enabled_flag (fst x282) =? 0) | None => false end) &&
  (match x262 with Some x283 => (tiles_enabled_flag (fst x283) =? 0) | None => false end) &&
  (match x262 with Some x284 => (entropy_coding_sync_enabled_flag (fst x284) =? 1) | None => false end) &&
  (match x262 with Some x285 => (pps_loop_filter_across_slices_enabled_flag (fst x285) =? 1) | None => false end) &&
  (match x262 with Some x286 => (deblocking_filter_control_present_flag (fst x286) =? 0) | None => false end) &&
  (match x262 with Some x287 => (pps_scaling_list_data_present_flag (fst x287) =? 0) | None => false end) &&
  (match x262 with Some x288 => (lists_modification_present_flag (fst x288) =? 0) | None => false end) &&
  (match x262 with Some x289 => (log2_parallel_merge_level_minus2 (fst x289) =? 0) | None => false end) &&
  (match x262 with Some x290 => (slice_segment_header_extension_present_flag (fst x290) =? 0) | None => false end) &&
  (match x262 with Some x291 => (pps_extension_present_flag (fst x291) =? 0) | None => false end) &&
  true | None => false end | None => false end | None => false end | None => false end | None => false end | None => false end | None => false end | None => false end | None => false end | _ => false end = true.
Proof. vm_compute. reflexivity. Qed.
(** * test/h265_hrd_parameters_parser_unittest.cc *)
Example T_hrd_parameters_parser_TestSampleHrdParameters :
  let buffer_ := [128; 23; 121; 68; 0; 5; 184; 216; 0; 7; 161; 32; 64; 0] in
  match on_data (ParseHrdParameters 1 0) buffer_ with Done (Some x1) =>
  ((nal_hrd_parameters_present_flag (x1) =? 1)) &&
  ((vcl_hrd_parameters_present_flag (x1) =? 0)) &&
  ((sub_pic_hrd_params_present_flag (x1) =? 0)) &&
  ((tick_divisor_minus2 (x1) =? 0)) &&
  ((du_cpb_removal_delay_increment_length_minus1 (x1) =? 0)) &&
  ((sub_pic_cpb_params_in_pic_timing_sei_flag (x1) =? 0)) &&
  ((dpb_output_delay_du_length_minus1 (x1) =? 0)) &&
  ((bit_rate_scale (x1) =? 0)) &&
  ((cpb_size_scale (x1) =? 0)) &&
  ((cpb_size_du_scale (x1) =? 0)) &&
  ((initial_cpb_removal_delay_length_minus1 (x1) =? 23)) &&
  ((au_cpb_removal_delay_length_minus1 (x1) =? 15)) &&
  ((dpb_output_delay_length_minus1 (x1) =? 5)) &&
  (same (map fixed_pic_rate_general_flag (hrd_sub_layers x1)) [0]) &&
  (same (map fixed_pic_rate_within_cvs_flag (hrd_sub_layers x1)) [0]) &&
  (same (map elemental_duration_in_tc_minus1 (hrd_sub_layers x1)) [0]) &&
  (same (map low_delay_hrd_flag (hrd_sub_layers x1)) [0]) &&
  (same (map cpb_cnt_minus1 (hrd_sub_layers x1)) [0]) &&
  let x2 := flat_map (fun s => match sub_layer_nal_hrd s with Some l => [l] | None => [] end ++ match sub_layer_vcl_hrd s with Some l => [l] | None => [] end) (hrd_sub_layers x1) in
  ((Z.of_nat (length (x2)) =? 1)) &&
  let x3 := nth_error (flat_map (fun s => match sub_layer_nal_hrd s with Some l => [l] | None => [] end ++ match sub_layer_vcl_hrd s with Some l => [l] | None => [] end) (hrd_sub_layers x1)) 0 in
  (match x3 with Some _ => true | None => false end) &&
  (match x3 with Some x4 => same (map bit_rate_value_minus1 x4) [46874] | None => false end) &&
  (match x3 with Some x5 => same (map cpb_size_value_minus1 x5) [124999] | None => false end) &&
  (match x3 with Some x6 => same (map cpb_size_du_value_minus1 x6) [0] | None => false end) &&
  (match x3 with Some x7 => same (map bit_rate_du_value_minus1 x7) [0] | None => false end) &&
  (match x3 with Some x8 => same (map cbr_flag x8) [0] | None => false end) &&
  true | _ => false end = true.
Proof. vm_compute. reflexivity. Qed.
(** * test/h265_nal_unit_parser_unittest.cc *)
Example T_nal_unit_parser_TestSampleNalUnit :
  let buffer_ := [64; 1; 12; 1; 255; 255; 1; 96; 0; 0; 3; 0; 176; 0; 0; 3; 0; 0; 3; 0; 93; 172; 89; 0] in
  match ParseNalUnit with_checksum buffer_ empty_state with Done (Some x1, st2) =>
  ((nu_parsed_length x1 =? 20)) &&
  (match nu_checksum x1 with Some x3 => (x3 =? 3215082900) | None => false end) &&
  ((forbidden_zero_bit (nu_header x1) =? 0)) &&
  ((nal_unit_type (nu_header x1) =? 32)) &&
  ((nuh_layer_id (nu_header x1) =? 0)) &&
  ((nuh_temporal_id_plus1 (nu_header x1) =? 1)) &&
  let x4 := np_vps (nu_payload x1) in
  (match x4 with Some x5 => (vps_video_parameter_set_id (fst x5) =? 0) | None => false end) &&
  (match x4 with Some x6 => (vps_base_layer_internal_flag (fst x6) =? 1) | None => false end) &&
  (match x4 with Some x7 => (vps_base_layer_available_flag (fst x7) =? 1) | None => false end) &&
  (match x4 with Some x8 => (vps_max_layers_minus1 (fst x8) =? 0) | None => false end) &&
  (match x4 with Some x9 => (vps_max_sub_layers_minus1 (fst x9) =? 0) | None => false end) &&
  (match x4 with Some x10 => (vps_temporal_id_nesting_flag (fst x10) =? 1) | None => false end) &&
  (match x4 with Some x11 => (vps_reserved_0xffff_16bits (fst x11) =? 65535) | None => false end) &&
  (match x4 with Some x12 => match ptl_general (vps_profile_tier_level (fst x12)) with Some x13 => (profile_space (x13) =? 0) | None => false end | None => false end) &&
  (match x4 with Some x14 => match ptl_general (vps_profile_tier_level (fst x14)) with Some x15 => (tier_flag (x15) =? 0) | None => false end | None => false end) &&
  (match x4 with Some x16 => match ptl_general (vps_profile_tier_level (fst x16)) with Some x17 => (profile_idc (x17) =? 1) | None => false end | None => false end) &&
  (match x4 with Some x18 => match ptl_general (vps_profile_tier_level (fst x18)) with Some x19 => same (profile_compatibility_flag (x19)) [0; 1; 1; 0; 0; 0; 0; 0; 0; 0; 0; 0; 0; 0; 0; 0; 0; 0; 0; 0; 0; 0; 0; 0; 0; 0; 0; 0; 0; 0; 0; 0] | None => false end | None => false end) &&
  (match x4 with Some x20 => match ptl_general (vps_profile_tier_level (fst x20)) with Some x21 => (progressive_source_flag (x21) =? 1) | None => false end | None => false end) &&
  (match x4 with Some x22 => match ptl_general (vps_profile_tier_level (fst x22)) with Some x23 => (interlaced_source_flag (x23) =? 0) | None => false end | None => false end) &&
  (match x4 with Some x24 => match ptl_general (vps_profile_tier_level (fst x24)) with Some x25 => (non_packed_constraint_flag (x25) =? 1) | None => false end | None => false end) &&
  (match x4 with Some x26 => match ptl_general (vps_profile_tier_level (fst x26)) with Some x27 => (frame_only_constraint_flag (x27) =? 1) | None => false end | None => false end) &&
  (match x4 with Some x28 => match ptl_general (vps_profile_tier_level (fst x28)) with Some x29 => (max_12bit_constraint_flag (x29) =? 0) | None => false end | None => false end) &&
  (match x4 with Some x30 => match ptl_general (vps_profile_tier_level (fst x30)) with Some x31 => (max_10bit_constraint_flag (x31) =? 0) | None => false end | None => false end) &&
  (match x4 with Some x32 => match ptl_general (vps_profile_tier_level (fst x32)) with Some x33 => (max_8bit_constraint_flag (x33) =? 0) | None => false end | None => false end) &&
  (match x4 with Some x34 => match ptl_general (vps_profile_tier_level (fst x34)) with Some x35 => (max_422chroma_constraint_flag (x35) =? 0) | None => false end | None => false end) &&
  (match x4 with Some x36 => match ptl_general (vps_profile_tier_level (fst x36)) with Some x37 => (max_420chroma_constraint_flag (x37) =? 0) | None => false end | None => false end) &&
  (match x4 with Some x38 => match ptl_general (vps_profile_tier_level (fst x38)) with Some x39 => (max_monochrome_constraint_flag (x39) =? 0) | None => false end | None => false end) &&
  (match x4 with Some x40 => match ptl_general (vps_profile_tier_level (fst x40)) with Some x41 => (intra_constraint_flag (x41) =? 0) | None => false end | None => false end) &&
  (match x4 with Some x42 => match ptl_general (vps_profile_tier_level (fst x42)) with Some x43 => (one_picture_only_constraint_flag (x43) =? 0) | None => false end | None => false end) &&
  (match x4 with Some x44 => match ptl_general (vps_profile_tier_level (fst x44)) with Some x45 => (lower_bit_rate_constraint_flag (x45) =? 0) | None => false end | None => false end) &&
  (match x4 with Some x46 => match ptl_general (vps_profile_tier_level (fst x46)) with Some x47 => (max_14bit_constraint_flag (x47) =? 0) | None => false end | None => false end) &&
  (match x4 with Some x48 => match ptl_general (vps_profile_tier_level (fst x48)) with Some x49 => (reserved_zero_33bits (x49) =? 0) | None => false end | None => false end) &&
  (match x4 with Some x50 => match ptl_general (vps_profile_tier_level (fst x50)) with Some x51 => (reserved_zero_34bits (x51) =? 0) | None => false end | None => false end) &&
  (match x4 with Some x52 => match ptl_general (vps_profile_tier_level (fst x52)) with Some x53 => (reserved_zero_43bits (x53) =? 0) | None => false end | None => false end) &&
  (match x4 with Some x54 => match ptl_general (vps_profile_tier_level (fst x54)) with Some x55 => (inbld_flag (x55) =? 0) | None => false end | None => false end) &&
  (match x4 with Some x56 => match ptl_general (vps_profile_tier_level (fst x56)) with Some x57 => (reserved_zero_bit (x57) =? 0) | None => false end | None => false end) &&
  (match x4 with Some x58 => (ptl_general_level_idc (vps_profile_tier_level (fst x58)) =? 93) | None => false end) &&
  (match x4 with Some x59 => (Z.of_nat (length (map fst (ptl_sub_layer_flags (vps_profile_tier_level (fst x59))))) =? 0) | None => false end) &&
  (match x4 with Some x60 => (Z.of_nat (length (map snd (ptl_sub_layer_flags (vps_profile_tier_level (fst x60))))) =? 0) | None => false end) &&
  (match x4 with Some x61 => (Z.of_nat (length (ptl_reserved_zero_2bits (vps_profile_tier_level (fst x61)))) =? 0) | None => false end) &&
  (match x4 with Some x62 => (Z.of_nat (length (map snd (ptl_sub_layers (vps_profile_tier_level (fst x62))))) =? 0) | None => false end) &&
  (match x4 with Some x63 => (vps_sub_layer_ordering_info_present_flag (fst x63) =? 1) | None => false end) &&
  (match x4 with Some x64 => same (map max_dec_pic_buffering_minus1 (vps_ordering (fst x64))) [1] | None => false end) &&
  (match x4 with Some x65 => same (map max_num_reorder_pics (vps_ordering (fst x65))) [0] | None => false end) &&
  (match x4 with Some x66 => same (map max_latency_increase_plus1 (vps_ordering (fst x66))) [0] | None => false end) &&
  (match x4 with Some x67 => (vps_max_layer_id (fst x67) =? 5) | None => false end) &&
  (match x4 with Some x68 => (vps_num_layer_sets_minus1 (fst x68) =? 0) | None => false end) &&
  (match x4 with Some x69 => (Z.of_nat (length (layer_id_included_flag (fst x69))) =? 0) | None => false end) &&
  (match x4 with Some x70 => (vps_timing_info_present_flag (fst x70) =? 0) | None => false end) &&
  (match x4 with Some x71 => (vps_num_units_in_tick (fst x71) =? 0) | None => false end) &&
  (match x4 with Some x72 => (vps_time_scale (fst x72) =? 0) | None => false end) &&
  (match x4 with Some x73 => (vps_poc_proportional_to_timing_flag (fst x73) =? 0) | None => false end) &&
  (match x4 with Some x74 => (vps_num_ticks_poc_diff_one_minus1 (fst x74) =? 0) | None => false end) &&
  (match x4 with Some x75 => (vps_num_hrd_parameters (fst x75) =? 0) | None => false end) &&
  (match x4 with Some x76 => (Z.of_nat (length (map hrd_layer_set_idx (vps_hrds (fst x76)))) =? 0) | None => false end) &&
  (match x4 with Some x77 => (Z.of_nat (length (map cprms_present_flag (vps_hrds (fst x77)))) =? 0) | None => false end) &&
  (match x4 with Some x78 => (vps_extension_flag (fst x78) =? 0) | None => false end) &&
  (match x4 with Some x79 => (snd x79 =? 0) | None => false end) &&
  true | _ => false end = true.
Proof. vm_compute. reflexivity. Qed.
Example T_nal_unit_parser_TestEmptyNalUnit :
  let buffer_ := [0] in
  match ParseNalUnit default_options [] empty_state with Done (None, st2) =>
  true | _ => false end = true.
Proof. vm_compute. reflexivity. Qed.
Example T_nal_unit_parser_VerifParseNaluType :
  let buffer_ := [32; 1; 12; 1; 255; 255; 1; 96; 0; 0; 3; 0; 176; 0; 0; 3; 0; 0; 3; 0; 93; 172; 89; 0] in
  match GetNalUnitType buffer_ with Done (Some x1) =>
  ((x1 =? 16)) &&
  true | _ => false end = true.
Proof. vm_compute. reflexivity. Qed.
(** * test/h265_pps_multilayer_extension_parser_unittest.cc *)
Example T_pps_multilayer_extension_parser_TestSamplePpsMultilayerExtension :
  let buffer_ := [32] in
  match on_data ParsePpsMultilayerExtension buffer_ with Done (Some x1) =>
  ((poc_reset_info_present_flag (x1) =? 0)) &&
  ((pps_infer_scaling_list_flag (x1) =? 0)) &&
  ((num_ref_loc_offsets (x1) =? 0)) &&
  ((colour_mapping_enabled_flag (x1) =? 0)) &&
  true | _ => false end = true.
Proof. vm_compute. reflexivity. Qed.
(** * test/h265_pps_parser_unittest.cc *)
Example T_pps_parser_TestSamplePPS :
  let buffer_ := [192; 243; 192; 2; 16; 0] in
  match on_data ParsePps buffer_ with Done (Some x1) =>
  ((pps_pic_parameter_set_id (fst x1) =? 0)) &&
  ((pps_seq_parameter_set_id (fst x1) =? 0)) &&
  ((dependent_slice_segments_enabled_flag (fst x1) =? 0)) &&
  ((output_flag_present_flag (fst x1) =? 0)) &&
  ((num_extra_slice_header_bits (fst x1) =? 0)) &&
  ((sign_data_hiding_enabled_flag (fst x1) =? 0)) &&
  ((cabac_init_present_flag (fst x1) =? 1)) &&
  ((num_ref_idx_l0_default_active_minus1 (fst x1) =? 0)) &&
  ((num_ref_idx_l1_default_active_minus1 (fst x1) =? 0)) &&
  ((init_qp_minus26 (fst x1) =? 0)) &&
  ((constrained_intra_pred_flag (fst x1) =? 0)) &&
  ((transform_skip_enabled_flag (fst x1) =? 0)) &&
  ((cu_qp_delta_enabled_flag (fst x1) =? 1)) &&
  ((diff_cu_qp_delta_depth (fst x1) =? 0)) &&
  ((pps_cb_qp_offset (fst x1) =? 0)) &&
  ((pps_cr_qp_offset (fst x1) =? 0)) &&
  ((pps_slice_chroma_qp_offsets_present_flag (fst x1) =? 0)) &&
  ((weighted_pred_flag (fst x1) =? 0)) &&
  ((weighted_bipred_flag (fst x1) =? 0)) &&
  ((transquant_bypass_enabled_flag (fst x1) =? 0)) &&
  ((tiles_enabled_flag (fst x1) =? 0)) &&
  ((entropy_coding_sync_enabled_flag (fst x1) =? 0)) &&
  ((pps_loop_filter_across_slices_enabled_flag (fst x1) =? 0)) &&
  ((deblocking_filter_control_present_flag (fst x1) =? 0)) &&
  ((pps_scaling_list_data_present_flag (fst x1) =? 0)) &&
  ((lists_modification_present_flag (fst x1) =? 0)) &&
  ((log2_parallel_merge_level_minus2 (fst x1) =? 3)) &&
  ((slice_segment_header_extension_present_flag (fst x1) =? 0)) &&
  ((pps_extension_present_flag (fst x1) =? 0)) &&
  true | _ => false end = true.
Proof. vm_compute. reflexivity. Qed.
(** * test/h265_pps_scc_extension_parser_unittest.cc *)
Example T_pps_scc_extension_parser_TestSamplePpsSccExtension :
  let buffer_ := [0] in
  match on_data ParsePpsSccExtension buffer_ with Done (Some x1) =>
  ((pps_curr_pic_ref_enabled_flag (x1) =? 0)) &&
  ((residual_adaptive_colour_transform_enabled_flag (x1) =? 0)) &&
  ((pps_palette_predictor_initializer_present_flag (x1) =? 0)) &&
  ((Z.of_nat (length (pps_palette_predictor_initializers x1)) =? 0)) &&
  true | _ => false end = true.
Proof. vm_compute. reflexivity. Qed.
Example T_pps_scc_extension_parser_TestEnormousLumaBitDepth :
  let buffer_ := [168; 0; 0; 0; 3; 3; 255; 255; 255; 228; 0; 0] in
  match on_data ParsePpsSccExtension buffer_ with Done None =>
  true | _ => false end = true.
Proof. vm_compute. reflexivity. Qed.
(** * test/h265_pred_weight_table_parser_unittest.cc *)
Example T_pred_weight_table_parser_TestSamplePredWeightTable1 :
  let buffer_ := [16; 198] in
  match on_data (ParsePredWeightTable 1 0) buffer_ with Done (Some x1) =>
  ((luma_log2_weight_denom (x1) =? 7)) &&
  ((delta_chroma_log2_weight_denom (x1) =? (-1))) &&
  (same (luma_weight_l0_flag (x1)) [0]) &&
  (same (chroma_weight_l0_flag (x1)) [0]) &&
  true | _ => false end = true.
Proof. vm_compute. reflexivity. Qed.
Example T_pred_weight_table_parser_TestSamplePredWeightTable2 :
  let buffer_ := [16; 192; 96] in
  match on_data (ParsePredWeightTable 1 2) buffer_ with Done (Some x1) =>
  ((luma_log2_weight_denom (x1) =? 7)) &&
  ((delta_chroma_log2_weight_denom (x1) =? (-1))) &&
  (same (luma_weight_l0_flag (x1)) [0; 0; 0]) &&
  (same (chroma_weight_l0_flag (x1)) [0; 0; 0]) &&
  true | _ => false end = true.
Proof. vm_compute. reflexivity. Qed.
(** * test/h265_profile_tier_level_parser_unittest.cc *)
Example T_profile_tier_level_parser_TestSampleValue :
  let buffer_ := [1; 96; 0; 0; 3; 0; 176; 0; 0; 3; 0; 0; 3; 0; 93; 172; 89] in
  match on_data (ParseProfileTierLevel true 0) buffer_ with Done (Some x1) =>
  (match ptl_general x1 with Some x2 => (profile_space (x2) =? 0) | None => false end) &&
  (match ptl_general x1 with Some x3 => (tier_flag (x3) =? 0) | None => false end) &&
  (match ptl_general x1 with Some x4 => (profile_idc (x4) =? 1) | None => false end) &&
  (match ptl_general x1 with Some x5 => same (profile_compatibility_flag (x5)) [0; 1; 1; 0; 0; 0; 0; 0; 0; 0; 0; 0; 0; 0; 0; 0; 0; 0; 0; 0; 0; 0; 0; 0; 0; 0; 0; 0; 0; 0; 0; 0] | None => false end) &&
  (match ptl_general x1 with Some x6 => (progressive_source_flag (x6) =? 1) | None => false end) &&
  (match ptl_general x1 with Some x7 => (interlaced_source_flag (x7) =? 0) | None => false end) &&
  (match ptl_general x1 with Some x8 => (non_packed_constraint_flag (x8) =? 1) | None => false end) &&
  (match ptl_general x1 with Some x9 => (frame_only_constraint_flag (x9) =? 1) | None => false end) &&
  (match ptl_general x1 with Some x10 => (max_12bit_constraint_flag (x10) =? 0) | None => false end) &&
  (match ptl_general x1 with Some x11 => (max_10bit_constraint_flag (x11) =? 0) | None => false end) &&
  (match ptl_general x1 with Some x12 => (max_8bit_constraint_flag (x12) =? 0) | None => false end) &&
  (match ptl_general x1 with Some x13 => (max_422chroma_constraint_flag (x13) =? 0) | None => false end) &&
  (match ptl_general x1 with Some x14 => (max_420chroma_constraint_flag (x14) =? 0) | None => false end) &&
  (match ptl_general x1 with Some x15 => (max_monochrome_constraint_flag (x15) =? 0) | None => false end) &&
  (match ptl_general x1 with Some x16 => (intra_constraint_flag (x16) =? 0) | None => false end) &&
  (match ptl_general x1 with Some x17 => (one_picture_only_constraint_flag (x17) =? 0) | None => false end) &&
  (match ptl_general x1 with Some x18 => (lower_bit_rate_constraint_flag (x18) =? 0) | None => false end) &&
  (match ptl_general x1 with Some x19 => (max_14bit_constraint_flag (x19) =? 0) | None => false end) &&
  (match ptl_general x1 with Some x20 => (reserved_zero_33bits (x20) =? 0) | None => false end) &&
  (match ptl_general x1 with Some x21 => (reserved_zero_34bits (x21) =? 0) | None => false end) &&
  (match ptl_general x1 with Some x22 => (reserved_zero_43bits (x22) =? 0) | None => false end) &&
  (match ptl_general x1 with Some x23 => (inbld_flag (x23) =? 0) | None => false end) &&
  (match ptl_general x1 with Some x24 => (reserved_zero_bit (x24) =? 0) | None => false end) &&
  ((ptl_general_level_idc x1 =? 93)) &&
  ((Z.of_nat (length (map fst (ptl_sub_layer_flags x1))) =? 0)) &&
  ((Z.of_nat (length (map snd (ptl_sub_layer_flags x1))) =? 0)) &&
  ((Z.of_nat (length (ptl_reserved_zero_2bits x1)) =? 0)) &&
  ((Z.of_nat (length (map snd (ptl_sub_layers x1))) =? 0)) &&
  true | _ => false end = true.
Proof. vm_compute. reflexivity. Qed.
Example T_profile_tier_level_parser_Test022018Standard :
  let buffer_ := [1; 96; 0; 0; 0; 128; 0; 0; 0; 0; 0; 186; 0; 0; 44; 9] in
  match on_data (ParseProfileTierLevel true 0) buffer_ with Done (Some x1) =>
  (match ptl_general x1 with Some x2 => (profile_space (x2) =? 0) | None => false end) &&
  (match ptl_general x1 with Some x3 => (tier_flag (x3) =? 0) | None => false end) &&
  (match ptl_general x1 with Some x4 => (profile_idc (x4) =? 1) | None => false end) &&
  (match ptl_general x1 with Some x5 => same (profile_compatibility_flag (x5)) [0; 1; 1; 0; 0; 0; 0; 0; 0; 0; 0; 0; 0; 0; 0; 0; 0; 0; 0; 0; 0; 0; 0; 0; 0; 0; 0; 0; 0; 0; 0; 0] | None => false end) &&
  (match ptl_general x1 with Some x6 => (progressive_source_flag (x6) =? 1) | None => false end) &&
  (match ptl_general x1 with Some x7 => (interlaced_source_flag (x7) =? 0) | None => false end) &&
  (match ptl_general x1 with Some x8 => (non_packed_constraint_flag (x8) =? 0) | None => false end) &&
  (match ptl_general x1 with Some x9 => (frame_only_constraint_flag (x9) =? 0) | None => false end) &&
  (match ptl_general x1 with Some x10 => (max_12bit_constraint_flag (x10) =? 0) | None => false end) &&
  (match ptl_general x1 with Some x11 => (max_10bit_constraint_flag (x11) =? 0) | None => false end) &&
  (match ptl_general x1 with Some x12 => (max_8bit_constraint_flag (x12) =? 0) | None => false end) &&
  (match ptl_general x1 with Some x13 => (max_422chroma_constraint_flag (x13) =? 0) | None => false end) &&
  (match ptl_general x1 with Some x14 => (max_420chroma_constraint_flag (x14) =? 0) | None => false end) &&
  (match ptl_general x1 with Some x15 => (max_monochrome_constraint_flag (x15) =? 0) | None => false end) &&
  (match ptl_general x1 with Some x16 => (intra_constraint_flag (x16) =? 0) | None => false end) &&
  (match ptl_general x1 with Some x17 => (one_picture_only_constraint_flag (x17) =? 0) | None => false end) &&
  (match ptl_general x1 with Some x18 => (lower_bit_rate_constraint_flag (x18) =? 0) | None => false end) &&
  (match ptl_general x1 with Some x19 => (max_14bit_constraint_flag (x19) =? 0) | None => false end) &&
  (match ptl_general x1 with Some x20 => (reserved_zero_33bits (x20) =? 0) | None => false end) &&
  (match ptl_general x1 with Some x21 => (reserved_zero_34bits (x21) =? 0) | None => false end) &&
  (match ptl_general x1 with Some x22 => (reserved_zero_43bits (x22) =? 0) | None => false end) &&
  (match ptl_general x1 with Some x23 => (inbld_flag (x23) =? 0) | None => false end) &&
  (match ptl_general x1 with Some x24 => (reserved_zero_bit (x24) =? 0) | None => false end) &&
  ((ptl_general_level_idc x1 =? 186)) &&
  ((Z.of_nat (length (map fst (ptl_sub_layer_flags x1))) =? 0)) &&
  ((Z.of_nat (length (map snd (ptl_sub_layer_flags x1))) =? 0)) &&
  ((Z.of_nat (length (ptl_reserved_zero_2bits x1)) =? 0)) &&
  ((Z.of_nat (length (map snd (ptl_sub_layers x1))) =? 0)) &&
  true | _ => false end = true.
Proof. vm_compute. reflexivity. Qed.
(** * test/h265_rtp_ap_parser_unittest.cc *)
Example T_rtp_ap_parser_TestSampleAUD :
  let buffer_ := [96; 1; 0; 23; 64; 1; 12; 1; 255; 255; 1; 96; 0; 0; 3; 0; 176; 0; 0; 3; 0; 0; 3; 0; 93; 172; 9; 0; 39; 66; 1; 1; 1; 96; 0; 0; 3; 0; 176; 0; 0; 3; 0; 0; 3; 0; 93; 160; 2; 128; 128; 46; 31; 19; 150; 187; 147; 36; 186; 148; 130; 129; 1; 1; 118; 133; 9; 64; 0; 10; 68; 1; 192; 226; 79; 9; 65; 236; 16; 128] in
  match ParseRtpAp buffer_ empty_state with Done (Some x1, st2) =>
  let x3 := ra_header x1 in
  ((forbidden_zero_bit (x3) =? 0)) &&
  ((nal_unit_type (x3) =? 48)) &&
  ((nuh_layer_id (x3) =? 0)) &&
  ((nuh_temporal_id_plus1 (x3) =? 1)) &&
  ((Z.of_nat (length (map au_size (ra_units x1))) =? 3)) &&
  ((Z.of_nat (length (map au_header (ra_units x1))) =? 3)) &&
  ((Z.of_nat (length (map au_payload (ra_units x1))) =? 3)) &&
  (match nth_error (map au_header (ra_units x1)) 0 with Some x4 => (nal_unit_type (x4) =? 32) | None => false end) &&
  (match nth_error (map au_header (ra_units x1)) 1 with Some x5 => (nal_unit_type (x5) =? 33) | None => false end) &&
  (match nth_error (map au_header (ra_units x1)) 2 with Some x6 => (nal_unit_type (x6) =? 34) | None => false end) &&
  true | _ => false end = true.
Proof. vm_compute. reflexivity. Qed.
(** * test/h265_rtp_fu_parser_unittest.cc *)
Example T_rtp_fu_parser_TestSampleStart :
  let buffer_ := [98; 1; 147; 175; 13; 112; 253; 244; 110; 240; 60; 126; 99; 200; 21; 245; 247; 110; 82; 15; 211; 181; 68; 97; 88; 36; 104; 224] in
  let st1 := set_vps empty_state 0 (mkVPS 0 0 0 0 0 0 0 (mkPTL None 0 [] [] []) 0 [] 0 0 [] 0 0 0 0 0 0 [] 0, 0) in
  let st2 := set_sps st1 0 (mkSPS 0 0 0 (mkPTL None 0 [] [] []) 0 1 0 0 0 0 0 0 0 0 0 0 0 0 [] 0 0 0 0 0 0 0 0 None 0 1 0 0 0 0 0 0 0 [] 0 0 [] 0 0 0 None 0 0 0 0 0 0 None None None None, 0) in
  let st3 := set_pps st2 0 (mkPPS 0 0 0 0 0 0 0 0 0 0 0 0 0 0 0 0 0 0 0 0 0 0 0 0 0 [] [] 0 0 0 0 0 0 0 0 None 0 0 0 0 0 0 0 0 0 None None, 0) in
  match ParseRtpFu buffer_ st3 with Done (Some x4, st5) =>
  let x6 := rf_header x4 in
  ((forbidden_zero_bit (x6) =? 0)) &&
  ((nal_unit_type (x6) =? 49)) &&
  ((nuh_layer_id (x6) =? 0)) &&
  ((nuh_temporal_id_plus1 (x6) =? 1)) &&
  ((s_bit (x4) =? 1)) &&
  ((e_bit (x4) =? 0)) &&
  ((fu_type (x4) =? 19)) &&
  let x7 := rf_payload x4 in
  (match x7 with Some _ => true | None => false end) &&
  match x7 with Some x8 =>
  let x9 := np_slice x8 in
  (match x9 with Some _ => true | None => false end) &&
  match x9 with Some x10 =>
  let x11 := x10 in
  ((first_slice_segment_in_pic_flag (x11) =? 1)) &&
  ((no_output_of_prior_pics_flag (x11) =? 0)) &&
  ((slice_pic_parameter_set_id (x11) =? 0)) &&
  ((slice_type (x11) =? 2)) &&
  true | None => false end | None => false end | _ => false end = true.
Proof. vm_compute. reflexivity. Qed.
Example T_rtp_fu_parser_TestSampleMiddle :
  let buffer_ := [98; 1; 19; 142; 170; 18; 204; 239; 106; 246; 176; 123; 122; 191; 234; 241; 60; 167; 32; 232; 5; 154; 254; 107] in
  match ParseRtpFu buffer_ empty_state with Done (Some x1, st2) =>
  let x3 := rf_header x1 in
  ((forbidden_zero_bit (x3) =? 0)) &&
  ((nal_unit_type (x3) =? 49)) &&
  ((nuh_layer_id (x3) =? 0)) &&
  ((nuh_temporal_id_plus1 (x3) =? 1)) &&
  ((s_bit (x1) =? 0)) &&
  ((e_bit (x1) =? 0)) &&
  ((fu_type (x1) =? 19)) &&
  true | _ => false end = true.
Proof. vm_compute. reflexivity. Qed.
Example T_rtp_fu_parser_TestSampleEnd :
  let buffer_ := [98; 1; 83; 133; 254; 222; 232; 156; 47; 213; 237; 185; 44; 236; 143; 8; 91; 149; 2; 121; 195; 183; 71; 22] in
  match ParseRtpFu buffer_ empty_state with Done (Some x1, st2) =>
  let x3 := rf_header x1 in
  ((forbidden_zero_bit (x3) =? 0)) &&
  ((nal_unit_type (x3) =? 49)) &&
  ((nuh_layer_id (x3) =? 0)) &&
  ((nuh_temporal_id_plus1 (x3) =? 1)) &&
  ((s_bit (x1) =? 0)) &&
  ((e_bit (x1) =? 1)) &&
  ((fu_type (x1) =? 19)) &&
  true | _ => false end = true.
Proof. vm_compute. reflexivity. Qed.
(** * test/h265_rtp_parser_unittest.cc *)
Example T_rtp_parser_TestSampleSingle :
  let buffer_ := [66; 1; 1; 1; 96; 0; 0; 3; 0; 176; 0; 0; 3; 0; 0; 3; 0; 93; 160; 2; 128; 128; 46; 31; 19; 150; 187; 147; 36; 187; 149; 130; 131; 3; 1; 118; 133; 9; 64] in
  match ParseRtp buffer_ empty_state with Done (Some x1, st2) =>
  let x3 := rtp_header x1 in
  ((forbidden_zero_bit (x3) =? 0)) &&
  ((nal_unit_type (x3) =? 33)) &&
  ((nuh_layer_id (x3) =? 0)) &&
  ((nuh_temporal_id_plus1 (x3) =? 1)) &&
  let x4 := r_single x1 in
  match x4 with Some x5 =>
  let x6 := np_sps (rs_payload x5) in
  (match x6 with Some x7 => (pic_width_in_luma_samples (fst x7) =? 1280) | None => false end) &&
  (match x6 with Some x8 => (pic_height_in_luma_samples (fst x8) =? 736) | None => false end) &&
  match x6 with Some x9 =>
  let x10 := sps_seq_parameter_set_id (fst x9) in
  (match st_sps st2 x10 with Some x11 => (pic_width_in_luma_samples (fst x11) =? 1280) | None => false end) &&
  (match st_sps st2 x10 with Some x12 => (pic_height_in_luma_samples (fst x12) =? 736) | None => false end) &&
  true | None => false end | None => false end | _ => false end = true.
Proof. vm_compute. reflexivity. Qed.
Example T_rtp_parser_TestSampleApAndFu :
  let buffer1_ := [96; 1; 0; 23; 64; 1; 12; 1; 255; 255; 1; 96; 0; 0; 3; 0; 176; 0; 0; 3; 0; 0; 3; 0; 93; 172; 9; 0; 39; 66; 1; 1; 1; 96; 0; 0; 3; 0; 176; 0; 0; 3; 0; 0; 3; 0; 93; 160; 2; 128; 128; 46; 31; 19; 150; 187; 147; 36; 186; 148; 130; 129; 1; 1; 118; 133; 9; 64; 0; 10; 68; 1; 192; 226; 79; 9; 65; 236; 16; 128] in
  match ParseRtp buffer1_ empty_state with Done (Some x1, st2) =>
  let x3 := rtp_header x1 in
  ((forbidden_zero_bit (x3) =? 0)) &&
  ((nal_unit_type (x3) =? 48)) &&
  ((nuh_layer_id (x3) =? 0)) &&
  ((nuh_temporal_id_plus1 (x3) =? 1)) &&
  let x4 := r_ap x1 in
  (match x4 with Some x5 => (Z.of_nat (length (map au_size (ra_units x5))) =? 3) | None => false end) &&
  (match x4 with Some x6 => (Z.of_nat (length (map au_header (ra_units x6))) =? 3) | None => false end) &&
  (match x4 with Some x7 => (Z.of_nat (length (map au_payload (ra_units x7))) =? 3) | None => false end) &&
  (match x4 with Some x8 => match nth_error (map au_header (ra_units x8)) 0 with Some x9 => (nal_unit_type (x9) =? 32) | None => false end | None => false end) &&
  (match x4 with Some x10 => match nth_error (map au_header (ra_units x10)) 1 with Some x11 => (nal_unit_type (x11) =? 33) | None => false end | None => false end) &&
  (match x4 with Some x12 => match nth_error (map au_header (ra_units x12)) 2 with Some x13 => (nal_unit_type (x13) =? 34) | None => false end | None => false end) &&
  match x4 with Some x14 =>
  match nth_error (map au_payload (ra_units x14)) 1 with Some x15 =>
  let x16 := np_sps x15 in
  (match x16 with Some x17 => (pic_width_in_luma_samples (fst x17) =? 1280) | None => false end) &&
  (match x16 with Some x18 => (pic_height_in_luma_samples (fst x18) =? 736) | None => false end) &&
  match x16 with Some x19 =>
  let x20 := sps_seq_parameter_set_id (fst x19) in
  (match st_sps st2 x20 with Some x21 => (pic_width_in_luma_samples (fst x21) =? 1280) | None => false end) &&
  (match st_sps st2 x20 with Some x22 => (pic_height_in_luma_samples (fst x22) =? 736) | None => false end) &&
  match x4 with Some x23 =>
  match nth_error (map au_payload (ra_units x23)) 2 with Some x24 =>
  let x25 := np_pps x24 in
  (match x25 with Some x26 => (init_qp_minus26 (fst x26) =? (-4)) | None => false end) &&
  match x25 with Some x27 =>
  let x28 := pps_pic_parameter_set_id (fst x27) in
  (match st_pps st2 x28 with Some x29 => (init_qp_minus26 (fst x29) =? (-4)) | None => false end) &&
  let buffer2_ := [98; 1; 147; 175; 13; 112; 253; 244; 110; 240; 60; 126; 99; 200; 21; 245; 247; 110; 82; 15; 211; 181; 68; 97; 88; 36; 104; 224] in
  match ParseRtp buffer2_ st2 with Done (Some x30, st31) =>
  let x32 := rtp_header x30 in
  ((forbidden_zero_bit (x32) =? 0)) &&
  ((nal_unit_type (x32) =? 49)) &&
  ((nuh_layer_id (x32) =? 0)) &&
  ((nuh_temporal_id_plus1 (x32) =? 1)) &&
  let x33 := r_fu x30 in
  (match x33 with Some x34 => (s_bit (x34) =? 1) | None => false end) &&
  (match x33 with Some x35 => (e_bit (x35) =? 0) | None => false end) &&
  (match x33 with Some x36 => (fu_type (x36) =? 19) | None => false end) &&
  match x33 with Some x37 =>
  match rf_payload x37 with Some x38 =>
  match np_slice x38 with Some x39 =>
  let x40 := x39 in
  ((slice_qp_delta (x40) =? 13)) &&
  match GetSliceQpYRtp x30 st31 with Done (Some x41) =>
  ((x41 =? 35)) &&
  true | _ => false end | None => false end | None => false end | None => false end | _ => false end | None => false end | None => false end | None => false end | None => false end | None => false end | None => false end | _ => false end = true.
Proof. vm_compute. reflexivity. Qed.
(** * test/h265_rtp_single_parser_unittest.cc *)
Example T_rtp_single_parser_TestSampleVps :
  let buffer_ := [64; 1; 12; 1; 255; 255; 1; 96; 0; 0; 3; 0; 176; 0; 0; 3; 0; 0; 3; 0; 93; 172; 89; 0] in
  match ParseRtpSingle buffer_ empty_state with Done (Some x1, st2) =>
  ((forbidden_zero_bit (rs_header x1) =? 0)) &&
  ((nal_unit_type (rs_header x1) =? 32)) &&
  ((nuh_layer_id (rs_header x1) =? 0)) &&
  ((nuh_temporal_id_plus1 (rs_header x1) =? 1)) &&
  true | _ => false end = true.
Proof. vm_compute. reflexivity. Qed.
Example T_rtp_single_parser_TestMultipleRtpPackets :
  let buffer_ := [64; 1; 12; 1; 255; 255; 1; 96; 0; 0; 3; 0; 176; 0; 0; 3; 0; 0; 3; 0; 93; 172; 89; 0] in
  match ParseRtpSingle buffer_ empty_state with Done (Some x1, st2) =>
  let x3 := rs_header x1 in
  let x4 := rs_payload x1 in
  ((forbidden_zero_bit (x3) =? 0)) &&
  ((nal_unit_type (x3) =? 32)) &&
  ((nuh_layer_id (x3) =? 0)) &&
  ((nuh_temporal_id_plus1 (x3) =? 1)) &&
  let buffer_ := [66; 1; 1; 1; 96; 0; 0; 3; 0; 176; 0; 0; 3; 0; 0; 3; 0; 93; 160; 2; 128; 128; 46; 31; 19; 150; 187; 147; 36; 187; 149; 130; 131; 3; 1; 118; 133; 9; 64; 0] in
  match ParseRtpSingle buffer_ st2 with Done (Some x5, st6) =>
  let x7 := rs_header x5 in
  let x8 := rs_payload x5 in
  ((forbidden_zero_bit (x7) =? 0)) &&
  ((nal_unit_type (x7) =? 33)) &&
  ((nuh_layer_id (x7) =? 0)) &&
  ((nuh_temporal_id_plus1 (x7) =? 1)) &&
  let x9 := np_sps x8 in
  (match x9 with Some x10 => (pic_width_in_luma_samples (fst x10) =? 1280) | None => false end) &&
  (match x9 with Some x11 => (pic_height_in_luma_samples (fst x11) =? 736) | None => false end) &&
  match x9 with Some x12 =>
  let x13 := sps_seq_parameter_set_id (fst x12) in
  (match st_sps st6 x13 with Some x14 => (pic_width_in_luma_samples (fst x14) =? 1280) | None => false end) &&
  (match st_sps st6 x13 with Some x15 => (pic_height_in_luma_samples (fst x15) =? 736) | None => false end) &&
  let buffer_ := [68; 1; 192; 243; 192; 2; 16; 0] in
  match ParseRtpSingle buffer_ st6 with Done (Some x16, st17) =>
  let x18 := rs_header x16 in
  let x19 := rs_payload x16 in
  ((forbidden_zero_bit (x18) =? 0)) &&
  ((nal_unit_type (x18) =? 34)) &&
  ((nuh_layer_id (x18) =? 0)) &&
  ((nuh_temporal_id_plus1 (x18) =? 1)) &&
  let x20 := np_pps x19 in
  (match x20 with Some x21 => (init_qp_minus26 (fst x21) =? 0) | None => false end) &&
  match x20 with Some x22 =>
  let x23 := pps_pic_parameter_set_id (fst x22) in
  (match st_pps st17 x23 with Some x24 => (init_qp_minus26 (fst x24) =? 0) | None => false end) &&
  let buffer_ := [38; 1; 175; 9; 64; 243; 184; 213; 57; 186; 31; 228; 166; 8; 92; 110; 177; 143; 0; 56; 241; 166; 252; 241; 64; 4; 58; 134; 203; 144; 116; 206; 240; 70; 97; 147; 114; 214; 252; 53; 227; 197; 111; 10; 196; 158; 39; 196; 219; 227; 251; 56; 152; 208; 139; 213; 185; 185; 21; 180; 146; 73; 151; 229; 61; 54; 77; 69; 50; 92; 230; 137; 83; 118; 206; 187; 131; 161; 39; 53; 251; 243; 199; 212; 133; 50; 55; 148; 9; 236; 16] in
  match ParseRtpSingle buffer_ st17 with Done (Some x25, st26) =>
  let x27 := rs_header x25 in
  let x28 := rs_payload x25 in
  ((forbidden_zero_bit (x27) =? 0)) &&
  ((nal_unit_type (x27) =? 19)) &&
  ((nuh_layer_id (x27) =? 0)) &&
  ((nuh_temporal_id_plus1 (x27) =? 1)) &&
  match np_slice x28 with Some x29 =>
  let x30 := x29 in
  ((slice_qp_delta (x30) =? 9)) &&
  let x31 := slice_pic_parameter_set_id (x30) in
  (match st_pps st26 x31 with Some x32 => (init_qp_minus26 (fst x32) =? 0) | None => false end) &&
  true | None => false end | _ => false end | None => false end | _ => false end | None => false end | _ => false end | _ => false end = true.
Proof. vm_compute. reflexivity. Qed.
(** * test/h265_scaling_list_data_parser_unittest.cc *)
Example T_scaling_list_data_parser_TestSampleScalingListData01 :
  let buffer_ := [255; 255; 255; 255; 255; 255; 255; 255; 255; 255; 255; 255; 255; 255; 255; 255; 255; 255; 255; 255; 255; 255; 255; 255; 255; 255; 255; 255; 255; 255; 255; 255; 255; 255; 255; 255; 255; 255; 255; 255; 255; 255; 255; 255; 255; 255; 255; 255; 255; 255; 255; 255; 255; 255; 255; 255; 255; 255; 255; 255; 255; 255; 255; 255; 255; 255; 255; 255; 255; 255; 255; 255; 255; 255; 255; 255; 255; 255; 255; 255; 255; 255; 255; 255; 255; 255; 255; 255; 255; 255; 255; 255; 255; 255; 255; 255; 255; 255; 255; 255; 255; 255; 255; 255; 255; 255; 255; 255; 255; 255; 255; 255; 255; 255; 255; 255; 255; 255; 255; 255; 255; 255; 255; 255; 255; 255; 255; 255; 255; 255; 255; 255; 255; 255; 255; 255; 255; 255; 255; 255; 255; 255; 255; 255; 255; 255; 255; 255; 255; 255; 255; 255; 255; 255; 255; 255; 255; 255; 255; 255; 255; 255; 255; 255; 255; 255; 255; 255; 255; 255; 255; 255; 255; 255; 255; 255; 255; 255; 255; 255; 255; 255; 255; 255; 255; 255; 255; 255; 255; 255; 255; 255; 255; 255; 255; 255; 255; 255; 255; 255; 255; 255; 255; 255; 255; 255; 255; 255; 255; 255; 255; 255; 255; 255; 255; 255; 255; 255; 255; 255; 255; 255; 255; 255; 255; 255; 255; 255; 255; 255; 255; 255; 255; 255; 255; 255; 255; 255; 255; 255; 255; 255; 255; 255; 255; 255; 255; 255; 255; 255; 255; 255; 255; 255; 255; 255] in
  match on_data ParseScalingListData buffer_ with Done (Some x1) =>
  ((Z.of_nat (length (map (map sl_pred_mode_flag) (by_matrix x1))) =? 4)) &&
  (match nth_error (map (map sl_pred_mode_flag) (by_matrix x1)) 0 with Some x2 => same (x2) [1; 1; 1; 1; 1; 1] | None => false end) &&
  (match nth_error (map (map sl_pred_mode_flag) (by_matrix x1)) 1 with Some x3 => same (x3) [1; 1; 1; 1; 1; 1] | None => false end) &&
  (match nth_error (map (map sl_pred_mode_flag) (by_matrix x1)) 2 with Some x4 => same (x4) [1; 1; 1; 1; 1; 1] | None => false end) &&
  (match nth_error (map (map sl_pred_mode_flag) (by_matrix x1)) 3 with Some x5 => same (x5) [1; 0; 0; 1; 0; 0] | None => false end) &&
  ((Z.of_nat (length (map (map sl_pred_matrix_id_delta) (by_matrix x1))) =? 4)) &&
  (match nth_error (map (map sl_pred_matrix_id_delta) (by_matrix x1)) 0 with Some x6 => same (x6) [0; 0; 0; 0; 0; 0] | None => false end) &&
  (match nth_error (map (map sl_pred_matrix_id_delta) (by_matrix x1)) 1 with Some x7 => same (x7) [0; 0; 0; 0; 0; 0] | None => false end) &&
  (match nth_error (map (map sl_pred_matrix_id_delta) (by_matrix x1)) 2 with Some x8 => same (x8) [0; 0; 0; 0; 0; 0] | None => false end) &&
  (match nth_error (map (map sl_pred_matrix_id_delta) (by_matrix x1)) 3 with Some x9 => same (x9) [0; 0; 0; 0; 0; 0] | None => false end) &&
  ((Z.of_nat (length (dc_vectors x1)) =? 4)) &&
  (match nth_error (dc_vectors x1) 0 with Some x10 => same (x10) [0; 0; 0; 0; 0; 0] | None => false end) &&
  (match nth_error (dc_vectors x1) 1 with Some x11 => same (x11) [0; 0; 0; 0; 0; 0] | None => false end) &&
  (match nth_error (dc_vectors x1) 2 with Some x12 => same (x12) [0; 0; 0; 0; 0; 0] | None => false end) &&
  (match nth_error (dc_vectors x1) 3 with Some x13 => same (x13) [0; 0; 0; 0; 0; 0] | None => false end) &&
  ((Z.of_nat (length (map (map sl_coefs) (by_matrix x1))) =? 4)) &&
  (match nth_error (map (map sl_coefs) (by_matrix x1)) 0 with Some x14 => (Z.of_nat (length (x14)) =? 6) | None => false end) &&
  (match nth_error (map (map sl_coefs) (by_matrix x1)) 0 with Some x15 => match nth_error (x15) 0 with Some x16 => same (x16) [8; 8; 8; 8; 8; 8; 8; 8; 8; 8; 8; 8; 8; 8; 8; 8] | None => false end | None => false end) &&
  (match nth_error (map (map sl_coefs) (by_matrix x1)) 0 with Some x17 => match nth_error (x17) 1 with Some x18 => same (x18) [8; 8; 8; 8; 8; 8; 8; 8; 8; 8; 8; 8; 8; 8; 8; 8] | None => false end | None => false end) &&
  (match nth_error (map (map sl_coefs) (by_matrix x1)) 0 with Some x19 => match nth_error (x19) 2 with Some x20 => same (x20) [8; 8; 8; 8; 8; 8; 8; 8; 8; 8; 8; 8; 8; 8; 8; 8] | None => false end | None => false end) &&
  (match nth_error (map (map sl_coefs) (by_matrix x1)) 0 with Some x21 => match nth_error (x21) 3 with Some x22 => same (x22) [8; 8; 8; 8; 8; 8; 8; 8; 8; 8; 8; 8; 8; 8; 8; 8] | None => false end | None => false end) &&
  (match nth_error (map (map sl_coefs) (by_matrix x1)) 0 with Some x23 => match nth_error (x23) 4 with Some x24 => same (x24) [8; 8; 8; 8; 8; 8; 8; 8; 8; 8; 8; 8; 8; 8; 8; 8] | None => false end | None => false end) &&
  (match nth_error (map (map sl_coefs) (by_matrix x1)) 0 with Some x25 => match nth_error (x25) 5 with Some x26 => same (x26) [8; 8; 8; 8; 8; 8; 8; 8; 8; 8; 8; 8; 8; 8; 8; 8] | None => false end | None => false end) &&
  (match nth_error (map (map sl_coefs) (by_matrix x1)) 1 with Some x27 => (Z.of_nat (length (x27)) =? 6) | None => false end) &&
  (match nth_error (map (map sl_coefs) (by_matrix x1)) 1 with Some x28 => match nth_error (x28) 0 with Some x29 => same (x29) [8; 8; 8; 8; 8; 8; 8; 8; 8; 8; 8; 8; 8; 8; 8; 8; 8; 8; 8; 8; 8; 8; 8; 8; 8; 8; 8; 8; 8; 8; 8; 8; 8; 8; 8; 8; 8; 8; 8; 8; 8; 8; 8; 8; 8; 8; 8; 8; 8; 8; 8; 8; 8; 8; 8; 8; 8; 8; 8; 8; 8; 8; 8; 8] | None => false end | None => false end) &&
  (match nth_error (map (map sl_coefs) (by_matrix x1)) 1 with Some x30 => match nth_error (x30) 1 with Some x31 => same (x31) [8; 8; 8; 8; 8; 8; 8; 8; 8; 8; 8; 8; 8; 8; 8; 8; 8; 8; 8; 8; 8; 8; 8; 8; 8; 8; 8; 8; 8; 8; 8; 8; 8; 8; 8; 8; 8; 8; 8; 8; 8; 8; 8; 8; 8; 8; 8; 8; 8; 8; 8; 8; 8; 8; 8; 8; 8; 8; 8; 8; 8; 8; 8; 8] | None => false end | None => false end) &&
  (match nth_error (map (map sl_coefs) (by_matrix x1)) 1 with Some x32 => match nth_error (x32) 2 with Some x33 => same (x33) [8; 8; 8; 8; 8; 8; 8; 8; 8; 8; 8; 8; 8; 8; 8; 8; 8; 8; 8; 8; 8; 8; 8; 8; 8; 8; 8; 8; 8; 8; 8; 8; 8; 8; 8; 8; 8; 8; 8; 8; 8; 8; 8; 8; 8; 8; 8; 8; 8; 8; 8; 8; 8; 8; 8; 8; 8; 8; 8; 8; 8; 8; 8; 8] | None => false end | None => false end) &&
  (match nth_error (map (map sl_coefs) (by_matrix x1)) 1 with Some x34 => match nth_error (x34) 3 with Some x35 => same (x35) [8; 8; 8; 8; 8; 8; 8; 8; 8; 8; 8; 8; 8; 8; 8; 8; 8; 8; 8; 8; 8; 8; 8; 8; 8; 8; 8; 8; 8; 8; 8; 8; 8; 8; 8; 8; 8; 8; 8; 8; 8; 8; 8; 8; 8; 8; 8; 8; 8; 8; 8; 8; 8; 8; 8; 8; 8; 8; 8; 8; 8; 8; 8; 8] | None => false end | None => false end) &&
  (match nth_error (map (map sl_coefs) (by_matrix x1)) 1 with Some x36 => match nth_error (x36) 4 with Some x37 => same (x37) [8; 8; 8; 8; 8; 8; 8; 8; 8; 8; 8; 8; 8; 8; 8; 8; 8; 8; 8; 8; 8; 8; 8; 8; 8; 8; 8; 8; 8; 8; 8; 8; 8; 8; 8; 8; 8; 8; 8; 8; 8; 8; 8; 8; 8; 8; 8; 8; 8; 8; 8; 8; 8; 8; 8; 8; 8; 8; 8; 8; 8; 8; 8; 8] | None => false end | None => false end) &&
  (match nth_error (map (map sl_coefs) (by_matrix x1)) 1 with Some x38 => match nth_error (x38) 5 with Some x39 => same (x39) [8; 8; 8; 8; 8; 8; 8; 8; 8; 8; 8; 8; 8; 8; 8; 8; 8; 8; 8; 8; 8; 8; 8; 8; 8; 8; 8; 8; 8; 8; 8; 8; 8; 8; 8; 8; 8; 8; 8; 8; 8; 8; 8; 8; 8; 8; 8; 8; 8; 8; 8; 8; 8; 8; 8; 8; 8; 8; 8; 8; 8; 8; 8; 8] | None => false end | None => false end) &&
  (match nth_error (map (map sl_coefs) (by_matrix x1)) 2 with Some x40 => (Z.of_nat (length (x40)) =? 6) | None => false end) &&
  (match nth_error (map (map sl_coefs) (by_matrix x1)) 2 with Some x41 => match nth_error (x41) 0 with Some x42 => same (x42) [8; 8; 8; 8; 8; 8; 8; 8; 8; 8; 8; 8; 8; 8; 8; 8; 8; 8; 8; 8; 8; 8; 8; 8; 8; 8; 8; 8; 8; 8; 8; 8; 8; 8; 8; 8; 8; 8; 8; 8; 8; 8; 8; 8; 8; 8; 8; 8; 8; 8; 8; 8; 8; 8; 8; 8; 8; 8; 8; 8; 8; 8; 8; 8] | None => false end | None => false end) &&
  (match nth_error (map (map sl_coefs) (by_matrix x1)) 2 with Some x43 => match nth_error (x43) 1 with Some x44 => same (x44) [8; 8; 8; 8; 8; 8; 8; 8; 8; 8; 8; 8; 8; 8; 8; 8; 8; 8; 8; 8; 8; 8; 8; 8; 8; 8; 8; 8; 8; 8; 8; 8; 8; 8; 8; 8; 8; 8; 8; 8; 8; 8; 8; 8; 8; 8; 8; 8; 8; 8; 8; 8; 8; 8; 8; 8; 8; 8; 8; 8; 8; 8; 8; 8] | None => false end | None => false end) &&
  (match nth_error (map (map sl_coefs) (by_matrix x1)) 2 with Some x45 => match nth_error (x45) 2 with Some x46 => same (x46) [8; 8; 8; 8; 8; 8; 8; 8; 8; 8; 8; 8; 8; 8; 8; 8; 8; 8; 8; 8; 8; 8; 8; 8; 8; 8; 8; 8; 8; 8; 8; 8; 8; 8; 8; 8; 8; 8; 8; 8; 8; 8; 8; 8; 8; 8; 8; 8; 8; 8; 8; 8; 8; 8; 8; 8; 8; 8; 8; 8; 8; 8; 8; 8] | None => false end | None => false end) &&
  (match nth_error (map (map sl_coefs) (by_matrix x1)) 2 with Some x47 => match nth_error (x47) 3 with Some x48 => same (x48) [8; 8; 8; 8; 8; 8; 8; 8; 8; 8; 8; 8; 8; 8; 8; 8; 8; 8; 8; 8; 8; 8; 8; 8; 8; 8; 8; 8; 8; 8; 8; 8; 8; 8; 8; 8; 8; 8; 8; 8; 8; 8; 8; 8; 8; 8; 8; 8; 8; 8; 8; 8; 8; 8; 8; 8; 8; 8; 8; 8; 8; 8; 8; 8] | None => false end | None => false end) &&
  (match nth_error (map (map sl_coefs) (by_matrix x1)) 2 with Some x49 => match nth_error (x49) 4 with Some x50 => same (x50) [8; 8; 8; 8; 8; 8; 8; 8; 8; 8; 8; 8; 8; 8; 8; 8; 8; 8; 8; 8; 8; 8; 8; 8; 8; 8; 8; 8; 8; 8; 8; 8; 8; 8; 8; 8; 8; 8; 8; 8; 8; 8; 8; 8; 8; 8; 8; 8; 8; 8; 8; 8; 8; 8; 8; 8; 8; 8; 8; 8; 8; 8; 8; 8] | None => false end | None => false end) &&
  (match nth_error (map (map sl_coefs) (by_matrix x1)) 2 with Some x51 => match nth_error (x51) 5 with Some x52 => same (x52) [8; 8; 8; 8; 8; 8; 8; 8; 8; 8; 8; 8; 8; 8; 8; 8; 8; 8; 8; 8; 8; 8; 8; 8; 8; 8; 8; 8; 8; 8; 8; 8; 8; 8; 8; 8; 8; 8; 8; 8; 8; 8; 8; 8; 8; 8; 8; 8; 8; 8; 8; 8; 8; 8; 8; 8; 8; 8; 8; 8; 8; 8; 8; 8] | None => false end | None => false end) &&
  (match nth_error (map (map sl_coefs) (by_matrix x1)) 3 with Some x53 => (Z.of_nat (length (x53)) =? 6) | None => false end) &&
  (match nth_error (map (map sl_coefs) (by_matrix x1)) 3 with Some x54 => match nth_error (x54) 0 with Some x55 => same (x55) [8; 8; 8; 8; 8; 8; 8; 8; 8; 8; 8; 8; 8; 8; 8; 8; 8; 8; 8; 8; 8; 8; 8; 8; 8; 8; 8; 8; 8; 8; 8; 8; 8; 8; 8; 8; 8; 8; 8; 8; 8; 8; 8; 8; 8; 8; 8; 8; 8; 8; 8; 8; 8; 8; 8; 8; 8; 8; 8; 8; 8; 8; 8; 8] | None => false end | None => false end) &&
  (match nth_error (map (map sl_coefs) (by_matrix x1)) 3 with Some x56 => match nth_error (x56) 1 with Some x57 => (Z.of_nat (length (x57)) =? 0) | None => false end | None => false end) &&
  (match nth_error (map (map sl_coefs) (by_matrix x1)) 3 with Some x58 => match nth_error (x58) 2 with Some x59 => (Z.of_nat (length (x59)) =? 0) | None => false end | None => false end) &&
  (match nth_error (map (map sl_coefs) (by_matrix x1)) 3 with Some x60 => match nth_error (x60) 3 with Some x61 => same (x61) [8; 8; 8; 8; 8; 8; 8; 8; 8; 8; 8; 8; 8; 8; 8; 8; 8; 8; 8; 8; 8; 8; 8; 8; 8; 8; 8; 8; 8; 8; 8; 8; 8; 8; 8; 8; 8; 8; 8; 8; 8; 8; 8; 8; 8; 8; 8; 8; 8; 8; 8; 8; 8; 8; 8; 8; 8; 8; 8; 8; 8; 8; 8; 8] | None => false end | None => false end) &&
  (match nth_error (map (map sl_coefs) (by_matrix x1)) 3 with Some x62 => match nth_error (x62) 4 with Some x63 => (Z.of_nat (length (x63)) =? 0) | None => false end | None => false end) &&
  (match nth_error (map (map sl_coefs) (by_matrix x1)) 3 with Some x64 => match nth_error (x64) 5 with Some x65 => (Z.of_nat (length (x65)) =? 0) | None => false end | None => false end) &&
  true | _ => false end = true.
Proof. vm_compute. reflexivity. Qed.
(** * test/h265_sei_parser_unittest.cc *)
Example T_sei_parser_TestUserDataRegisteredItuTT35Sei :
  let buffer_ := [4; 71; 181; 0; 49; 71; 65; 57; 52; 3; 84; 0; 252; 128; 128; 253; 128; 128; 250; 0; 0; 250; 0; 0; 250; 0; 0; 250; 0; 0; 250; 0; 0; 250; 0; 0; 250; 0; 0; 250; 0; 0; 250; 0; 0; 250; 0; 0; 250; 0; 0; 250; 0; 0; 250; 0; 0; 250; 0; 0; 250; 0; 0; 250; 0; 0; 250; 0; 0; 250; 0; 0; 255] in
  match on_data ParseSei buffer_ with Done (Some x1) =>
  ((payload_type (x1) =? 4)) &&
  ((MSei.payload_size x1 =? 71)) &&
  match sei_payload_state x1 with Some (P_t35 x2) =>
  ((itu_t_t35_country_code (x2) =? 181)) &&
  ((itu_t_t35_country_code_extension_byte (x2) =? 0)) &&
  true | _ => false end | _ => false end = true.
Proof. vm_compute. reflexivity. Qed.
Example T_sei_parser_TestUserDataUnregisteredSei :
  let buffer_ := [5; 56; 44; 162; 222; 9; 181; 23; 71; 219; 187; 85; 164; 254; 127; 194; 252; 78; 120; 50; 54; 53; 32; 40; 98; 117; 105; 108; 100; 32; 51; 49; 41; 32; 45; 32; 49; 46; 51; 43; 50; 48; 45; 54; 101; 54; 55; 53; 54; 102; 57; 52; 98; 50; 55; 58; 91; 87; 105] in
  match on_data ParseSei buffer_ with Done (Some x1) =>
  ((payload_type (x1) =? 5)) &&
  ((MSei.payload_size x1 =? 56)) &&
  match sei_payload_state x1 with Some (P_unregistered x2) =>
  ((uuid_iso_iec_11578_1 (x2) =? 3216377217170229211)) &&
  ((uuid_iso_iec_11578_2 (x2) =? 13498876871085063246)) &&
  true | _ => false end | _ => false end = true.
Proof. vm_compute. reflexivity. Qed.
Example T_sei_parser_TestAlphaChannelInfoSei :
  let buffer_ := [165; 4; 0; 0; 127; 144; 128] in
  match on_data ParseSei buffer_ with Done (Some x1) =>
  match sei_payload_state x1 with Some (P_alpha x2) =>
  ((alpha_channel_cancel_flag (x2) =? 0)) &&
  ((alpha_channel_use_idc (x2) =? 0)) &&
  ((alpha_channel_bit_depth_minus8 (x2) =? 0)) &&
  ((alpha_transparent_value (x2) =? 0)) &&
  ((alpha_opaque_value (x2) =? 255)) &&
  ((alpha_channel_incr_flag (x2) =? 0)) &&
  ((alpha_channel_clip_flag (x2) =? 0)) &&
  true | _ => false end | _ => false end = true.
Proof. vm_compute. reflexivity. Qed.
Example T_sei_parser_TestMasteringDisplayColourVolumeSei :
  let buffer_ := [137; 24; 132; 73; 125; 0; 51; 92; 169; 194; 29; 76; 11; 184; 62; 128; 70; 80; 0; 152; 150; 128; 0; 0; 0; 50] in
  match on_data ParseSei buffer_ with Done (Some x1) =>
  ((payload_type (x1) =? 137)) &&
  ((MSei.payload_size x1 =? 24)) &&
  match sei_payload_state x1 with Some (P_mastering x2) =>
  (match nth_error (map fst (display_primaries x2)) 0 with Some x3 => (x3 =? 33865) | None => false end) &&
  (match nth_error (map snd (display_primaries x2)) 0 with Some x4 => (x4 =? 32000) | None => false end) &&
  (match nth_error (map fst (display_primaries x2)) 1 with Some x5 => (x5 =? 13148) | None => false end) &&
  (match nth_error (map snd (display_primaries x2)) 1 with Some x6 => (x6 =? 43458) | None => false end) &&
  (match nth_error (map fst (display_primaries x2)) 2 with Some x7 => (x7 =? 7500) | None => false end) &&
  (match nth_error (map snd (display_primaries x2)) 2 with Some x8 => (x8 =? 3000) | None => false end) &&
  ((white_point_x (x2) =? 16000)) &&
  ((white_point_y (x2) =? 18000)) &&
  ((max_display_mastering_luminance (x2) =? 10000000)) &&
  ((min_display_mastering_luminance (x2) =? 50)) &&
  true | _ => false end | _ => false end = true.
Proof. vm_compute. reflexivity. Qed.
Example T_sei_parser_TestContentLightLevelInfoSei :
  let buffer_ := [144; 4; 3; 232; 1; 144] in
  match on_data ParseSei buffer_ with Done (Some x1) =>
  ((payload_type (x1) =? 144)) &&
  ((MSei.payload_size x1 =? 4)) &&
  match sei_payload_state x1 with Some (P_light x2) =>
  ((max_content_light_level (x2) =? 1000)) &&
  ((max_pic_average_light_level (x2) =? 400)) &&
  true | _ => false end | _ => false end = true.
Proof. vm_compute. reflexivity. Qed.
Example T_sei_parser_TestAlternativeTransferCharacteristicsSei :
  let buffer_ := [147; 1; 18] in
  match on_data ParseSei buffer_ with Done (Some x1) =>
  ((payload_type (x1) =? 147)) &&
  ((MSei.payload_size x1 =? 1)) &&
  match sei_payload_state x1 with Some (P_alt x2) =>
  ((x2 =? 18)) &&
  true | _ => false end | _ => false end = true.
Proof. vm_compute. reflexivity. Qed.
Example T_sei_parser_TestAmbientViewingEnvironmentSei :
  let buffer_ := [148; 8; 0; 1; 134; 160; 61; 19; 64; 133] in
  match on_data ParseSei buffer_ with Done (Some x1) =>
  ((payload_type (x1) =? 148)) &&
  ((MSei.payload_size x1 =? 8)) &&
  match sei_payload_state x1 with Some (P_ambient x2) =>
  ((ambient_illuminance (x2) =? 100000)) &&
  ((ambient_light_x (x2) =? 15635)) &&
  ((ambient_light_y (x2) =? 16517)) &&
  true | _ => false end | _ => false end = true.
Proof. vm_compute. reflexivity. Qed.
Example T_sei_parser_TestKneeFunctionInfoSei :
  let buffer_ := [141; 1; 192] in
  match on_data ParseSei buffer_ with Done (Some x1) =>
  ((payload_type (x1) =? 141)) &&
  ((MSei.payload_size x1 =? 1)) &&
  match sei_payload_state x1 with Some (P_knee x2) =>
  ((knee_function_id (x2) =? 0)) &&
  ((knee_function_cancel_flag (x2) =? 1)) &&
  true | _ => false end | _ => false end = true.
Proof. vm_compute. reflexivity. Qed.
Example T_sei_parser_TestContentColourVolumeSei :
  let buffer_ := [149; 1; 128] in
  match on_data ParseSei buffer_ with Done (Some x1) =>
  ((payload_type (x1) =? 149)) &&
  ((MSei.payload_size x1 =? 1)) &&
  match sei_payload_state x1 with Some (P_ccv x2) =>
  ((ccv_cancel_flag (x2) =? 1)) &&
  true | _ => false end | _ => false end = true.
Proof. vm_compute. reflexivity. Qed.
Example T_sei_parser_TestContentColourVolumeComplexSei :
  let buffer_ := [149; 37; 124; 18; 52; 0; 0; 86; 120; 0; 0; 170; 187; 204; 221; 17; 34; 51; 68; 85; 102; 119; 136; 153; 170; 187; 204; 16; 32; 48; 64; 80; 96; 112; 128; 160; 176; 192; 208] in
  match on_data ParseSei buffer_ with Done (Some x1) =>
  ((payload_type (x1) =? 149)) &&
  ((MSei.payload_size x1 =? 37)) &&
  match sei_payload_state x1 with Some (P_ccv x2) =>
  ((ccv_cancel_flag (x2) =? 0)) &&
  ((ccv_persistence_flag (x2) =? 1)) &&
  ((ccv_primaries_present_flag (x2) =? 1)) &&
  ((ccv_min_luminance_value_present_flag (x2) =? 1)) &&
  ((ccv_max_luminance_value_present_flag (x2) =? 1)) &&
  ((ccv_avg_luminance_value_present_flag (x2) =? 1)) &&
  ((ccv_reserved_zero_2bits (x2) =? 0)) &&
  (match nth_error (map fst (ccv_primaries x2)) 0 with Some x3 => (x3 =? 305397760) | None => false end) &&
  (match nth_error (map snd (ccv_primaries x2)) 0 with Some x4 => (x4 =? 1450704896) | None => false end) &&
  (match nth_error (map fst (ccv_primaries x2)) 1 with Some x5 => (x5 =? -1430532899) | None => false end) &&
  (match nth_error (map snd (ccv_primaries x2)) 1 with Some x6 => (x6 =? 287454020) | None => false end) &&
  (match nth_error (map fst (ccv_primaries x2)) 2 with Some x7 => (x7 =? 1432778632) | None => false end) &&
  (match nth_error (map snd (ccv_primaries x2)) 2 with Some x8 => (x8 =? -1716864052) | None => false end) &&
  ((ccv_min_luminance_value (x2) =? 270544960)) &&
  ((ccv_max_luminance_value (x2) =? 1348497536)) &&
  ((ccv_avg_luminance_value (x2) =? 2695938256)) &&
  true | _ => false end | _ => false end = true.
Proof. vm_compute. reflexivity. Qed.
Example T_sei_parser_TestColourRemappingInfoSei :
  let buffer_ := [142; 1; 192] in
  match on_data ParseSei buffer_ with Done (Some x1) =>
  ((payload_type (x1) =? 142)) &&
  ((MSei.payload_size x1 =? 1)) &&
  match sei_payload_state x1 with Some (P_remap x2) =>
  ((colour_remap_id (x2) =? 0)) &&
  ((colour_remap_cancel_flag (x2) =? 1)) &&
  true | _ => false end | _ => false end = true.
Proof. vm_compute. reflexivity. Qed.
(** * test/h265_slice_parser_unittest.cc *)
Example T_slice_parser_TestSampleSlice :
  let buffer_ := [175; 9; 64; 243; 184; 213; 57; 186; 31; 228; 166; 8; 92; 110; 177; 143; 0; 56; 241; 166; 252; 241; 64; 4; 58; 134; 203; 144; 116; 206; 240; 70; 97; 147; 114; 214; 252; 53; 227; 197] in
  let st1 := set_vps empty_state 0 (mkVPS 0 0 0 0 0 0 0 (mkPTL None 0 [] [] []) 0 [] 0 0 [] 0 0 0 0 0 0 [] 0, 0) in
  let st2 := set_sps st1 0 (mkSPS 0 0 0 (mkPTL None 0 [] [] []) 0 1 0 0 0 0 0 0 0 0 0 0 0 0 [] 0 0 0 0 0 0 0 0 None 0 1 0 0 0 0 0 0 0 [] 0 0 [] 0 0 0 None 0 0 0 0 0 0 None None None None, 0) in
  let st3 := set_pps st2 0 (mkPPS 0 0 0 0 0 0 0 0 0 0 0 0 0 0 0 0 0 0 0 0 0 0 0 0 0 [] [] 0 0 0 0 0 0 0 0 None 0 0 0 0 0 0 0 0 0 None None, 0) in
  match on_data (ParseSliceSegmentHeader 19 st3) buffer_ with Done (Some x4) =>
  let x5 := x4 in
  ((first_slice_segment_in_pic_flag (x5) =? 1)) &&
  ((no_output_of_prior_pics_flag (x5) =? 0)) &&
  ((slice_pic_parameter_set_id (x5) =? 0)) &&
  ((slice_type (x5) =? 2)) &&
  ((slice_sao_luma_flag (x5) =? 1)) &&
  ((slice_sao_chroma_flag (x5) =? 1)) &&
  ((slice_qp_delta (x5) =? 9)) &&
  true | _ => false end = true.
Proof. vm_compute. reflexivity. Qed.
Example T_slice_parser_TestSampleSlice2 :
  let buffer_ := [38; 1; 32; 243; 195; 92; 253; 254; 214; 37; 188; 13; 177; 250; 129; 99; 222; 10; 196; 167; 234; 66; 137; 182; 30; 187; 94; 63; 253; 108; 138; 45] in
  let st1 := set_vps empty_state 0 (mkVPS 0 0 0 0 0 0 0 (mkPTL None 0 [] [] []) 0 [] 0 0 [] 0 0 0 0 0 0 [] 0, 0) in
  let st2 := set_sps st1 0 (mkSPS 0 0 0 (mkPTL None 0 [] [] []) 0 1 0 1280 736 0 0 0 0 0 0 0 0 0 [] 0 2 0 0 0 0 0 0 None 0 1 0 0 0 0 0 0 0 [] 0 0 [] 0 0 0 None 0 0 0 0 0 0 None None None None, 0) in
  let st3 := set_pps st2 0 (mkPPS 0 0 0 0 0 0 0 0 0 0 0 0 0 0 0 0 0 0 0 0 0 0 0 0 0 [] [] 0 0 0 0 0 0 0 0 None 0 0 0 0 0 0 0 0 0 None None, 0) in
  match on_data (ParseSliceSegmentHeader 19 st3) buffer_ with Done (Some x4) =>
  let x5 := x4 in
  ((first_slice_segment_in_pic_flag (x5) =? 0)) &&
  ((no_output_of_prior_pics_flag (x5) =? 0)) &&
  ((slice_pic_parameter_set_id (x5) =? 0)) &&
  ((slice_segment_address (x5) =? 192)) &&
  ((slice_type (x5) =? 3)) &&
  ((slice_sao_luma_flag (x5) =? 1)) &&
  ((slice_sao_chroma_flag (x5) =? 0)) &&
  ((slice_qp_delta (x5) =? 15)) &&
  true | _ => false end = true.
Proof. vm_compute. reflexivity. Qed.
Example T_slice_parser_TestSampleSlicePpsId15 :
  let buffer_ := [2; 1; 210; 120; 247; 85; 220; 191; 44; 68; 0; 65; 168; 209; 102; 68; 179; 18; 147; 188; 150; 84; 98; 66; 83; 238; 214; 20; 58; 244; 57; 253; 154; 97; 40; 226; 82; 123; 80; 72; 77; 28; 227; 197; 99; 230; 125; 165; 176; 135; 212; 95; 138; 7; 77; 153; 64; 204; 230; 33; 227; 72; 192; 6; 51; 44; 12; 4; 119; 57; 34; 182; 123; 225; 64; 89; 236; 25; 4; 252; 154; 165; 63; 58; 128; 90; 98; 61; 207; 193; 56; 227; 140; 237; 241; 68; 168; 84; 233; 22; 241; 34; 123; 134; 58; 138; 127; 155; 172; 100; 230; 162; 215; 15; 61; 110; 232; 194; 13; 167; 72; 189; 85; 83; 113; 137; 139; 130; 89; 92; 206; 24; 30; 165; 159; 205; 26; 221; 30; 129; 105; 61; 45; 45; 178; 171; 41; 220; 223; 101; 40; 72; 52; 70; 1; 86; 221; 174; 147; 25] in
  let st1 := set_vps empty_state 0 (mkVPS 0 0 0 0 0 0 0 (mkPTL None 0 [] [] []) 0 [] 0 0 [] 0 0 0 0 0 0 [] 0, 0) in
  let st2 := set_sps st1 0 (mkSPS 0 0 0 (mkPTL None 0 [] [] []) 0 1 0 1280 736 0 0 0 0 0 0 0 0 0 [] 0 2 0 0 0 0 0 0 None 0 1 0 0 0 0 0 0 0 [] 0 0 [] 0 0 0 None 0 0 0 0 0 0 None None None None, 0) in
  let st3 := set_pps st2 15 (mkPPS 0 0 0 0 0 0 0 0 0 0 0 0 0 0 0 0 0 0 0 0 0 0 0 0 0 [] [] 0 0 0 0 0 0 0 0 None 0 0 0 0 0 0 0 0 0 None None, 0) in
  match on_data (ParseSliceSegmentHeader 19 st3) buffer_ with Done (Some x4) =>
  let x5 := x4 in
  true | _ => false end = true.
Proof. vm_compute. reflexivity. Qed.
Example T_slice_parser_TestSliceContainsShortTermRefPicSet :
  let vps_ := [64; 1; 12; 1; 255; 255; 1; 96; 0; 0; 3; 0; 176; 0; 0; 3; 0; 0; 3; 0; 150; 112; 32; 0] in
  let sps_ := [66; 1; 1; 1; 96; 0; 0; 3; 0; 176; 0; 0; 3; 0; 0; 3; 0; 150; 160; 5; 130; 0; 80; 22; 32; 94; 228; 89; 20; 191; 242; 231; 241; 63; 169; 184; 16; 0; 0; 0] in
  let pps_ := [68; 1; 192; 114; 240; 83; 36] in
  match ParseNalUnit default_options vps_ empty_state with Done (_, st2) =>
  match ParseNalUnit default_options sps_ st2 with Done (_, st4) =>
  match ParseNalUnit default_options pps_ st4 with Done (_, st6) =>
  (only_key_0 (st_vps st6)) &&
  (match st_vps st6 0 with Some _ => true | None => false end) &&
  (only_key_0 (st_sps st6)) &&
  (match st_sps st6 0 with Some _ => true | None => false end) &&
  (only_key_0 (st_pps st6)) &&
  (match st_pps st6 0 with Some _ => true | None => false end) &&
  let slice_ := [2; 1; 208; 83; 23; 98; 10; 5; 2; 112; 52; 56; 86; 14; 195; 72; 124; 191; 157; 170; 229; 81; 140; 139; 64; 145; 189; 158; 73; 149; 26; 97; 144; 111; 66; 37; 25; 80; 230; 251; 93; 79; 18; 114; 68; 220; 108; 150; 10; 189; 126; 135; 96; 192] in
  match ParseNalUnit default_options slice_ st6 with Done (Some x7, st8) =>
  (match np_slice (nu_payload x7) with Some _ => true | None => false end) &&
  match np_slice (nu_payload x7) with Some x9 =>
  let x10 := x9 in
  ((num_entry_point_offsets (x10) =? 39)) &&
  true | None => false end | _ => false end | _ => false end | _ => false end | _ => false end = true.
Proof. vm_compute. reflexivity. Qed.
(** * test/h265_sps_3d_extension_parser_unittest.cc *)
Example T_sps_3d_extension_parser_TestSampleSps3dExtension :
  let buffer_ := [255; 255] in
  match on_data ParseSps3dExtension buffer_ with Done (Some x1) =>
  (same ([iv_di_mc_enabled_flag0 x1; iv_di_mc_enabled_flag1 x1]) [1; 1]) &&
  (same ([iv_mv_scal_enabled_flag0 x1; iv_mv_scal_enabled_flag1 x1]) [1; 1]) &&
  ((log2_ivmc_sub_pb_size_minus3 (x1) =? 0)) &&
  ((iv_res_pred_enabled_flag (x1) =? 1)) &&
  ((depth_ref_enabled_flag (x1) =? 1)) &&
  ((vsp_mc_enabled_flag (x1) =? 1)) &&
  ((dbbp_enabled_flag (x1) =? 1)) &&
  ((tex_mc_enabled_flag (x1) =? 1)) &&
  ((log2_texmc_sub_pb_size_minus3 (x1) =? 0)) &&
  ((intra_contour_enabled_flag (x1) =? 1)) &&
  ((intra_dc_only_wedge_enabled_flag (x1) =? 1)) &&
  ((cqt_cu_part_pred_enabled_flag (x1) =? 1)) &&
  ((inter_dc_only_enabled_flag (x1) =? 1)) &&
  ((skip_intra_enabled_flag (x1) =? 1)) &&
  true | _ => false end = true.
Proof. vm_compute. reflexivity. Qed.
(** * test/h265_sps_multilayer_extension_parser_unittest.cc *)
Example T_sps_multilayer_extension_parser_TestSampleSpsMultilayerExtension :
  let buffer_ := [255] in
  match on_data ParseSpsMultilayerExtension buffer_ with Done (Some x1) =>
  ((x1 =? 1)) &&
  true | _ => false end = true.
Proof. vm_compute. reflexivity. Qed.
(** * test/h265_sps_parser_unittest.cc *)
Example T_sps_parser_TestSampleSPS :
  let buffer_ := [1; 1; 96; 0; 0; 3; 0; 176; 0; 0; 3; 0; 0; 3; 0; 93; 160; 2; 128; 128; 46; 31; 19; 150; 187; 147; 36; 187; 149; 130; 131; 3; 1; 118; 133; 9; 64] in
  match on_data ParseSps buffer_ with Done (Some x1) =>
  ((sps_video_parameter_set_id (fst x1) =? 0)) &&
  ((sps_max_sub_layers_minus1 (fst x1) =? 0)) &&
  ((sps_temporal_id_nesting_flag (fst x1) =? 1)) &&
  (match ptl_general (sps_profile_tier_level (fst x1)) with Some x2 => (profile_space (x2) =? 0) | None => false end) &&
  (match ptl_general (sps_profile_tier_level (fst x1)) with Some x3 => (tier_flag (x3) =? 0) | None => false end) &&
  (match ptl_general (sps_profile_tier_level (fst x1)) with Some x4 => (profile_idc (x4) =? 1) | None => false end) &&
  (match ptl_general (sps_profile_tier_level (fst x1)) with Some x5 => same (profile_compatibility_flag (x5)) [0; 1; 1; 0; 0; 0; 0; 0; 0; 0; 0; 0; 0; 0; 0; 0; 0; 0; 0; 0; 0; 0; 0; 0; 0; 0; 0; 0; 0; 0; 0; 0] | None => false end) &&
  (match ptl_general (sps_profile_tier_level (fst x1)) with Some x6 => (progressive_source_flag (x6) =? 1) | None => false end) &&
  (match ptl_general (sps_profile_tier_level (fst x1)) with Some x7 => (interlaced_source_flag (x7) =? 0) | None => false end) &&
  (match ptl_general (sps_profile_tier_level (fst x1)) with Some x8 => (non_packed_constraint_flag (x8) =? 1) | None => false end) &&
  (match ptl_general (sps_profile_tier_level (fst x1)) with Some x9 => (frame_only_constraint_flag (x9) =? 1) | None => false end) &&
  (match ptl_general (sps_profile_tier_level (fst x1)) with Some x10 => (max_12bit_constraint_flag (x10) =? 0) | None => false end) &&
  (match ptl_general (sps_profile_tier_level (fst x1)) with Some x11 => (max_10bit_constraint_flag (x11) =? 0) | None => false end) &&
  (match ptl_general (sps_profile_tier_level (fst x1)) with Some x12 => (max_8bit_constraint_flag (x12) =? 0) | None => false end) &&
  (match ptl_general (sps_profile_tier_level (fst x1)) with Some x13 => (max_422chroma_constraint_flag (x13) =? 0) | None => false end) &&
  (match ptl_general (sps_profile_tier_level (fst x1)) with Some x14 => (max_420chroma_constraint_flag (x14) =? 0) | None => false end) &&
  (match ptl_general (sps_profile_tier_level (fst x1)) with Some x15 => (max_monochrome_constraint_flag (x15) =? 0) | None => false end) &&
  (match ptl_general (sps_profile_tier_level (fst x1)) with Some x16 => (intra_constraint_flag (x16) =? 0) | None => false end) &&
  (match ptl_general (sps_profile_tier_level (fst x1)) with Some x17 => (one_picture_only_constraint_flag (x17) =? 0) | None => false end) &&
  (match ptl_general (sps_profile_tier_level (fst x1)) with Some x18 => (lower_bit_rate_constraint_flag (x18) =? 0) | None => false end) &&
  (match ptl_general (sps_profile_tier_level (fst x1)) with Some x19 => (max_14bit_constraint_flag (x19) =? 0) | None => false end) &&
  (match ptl_general (sps_profile_tier_level (fst x1)) with Some x20 => (reserved_zero_33bits (x20) =? 0) | None => false end) &&
  (match ptl_general (sps_profile_tier_level (fst x1)) with Some x21 => (reserved_zero_34bits (x21) =? 0) | None => false end) &&
  (match ptl_general (sps_profile_tier_level (fst x1)) with Some x22 => (reserved_zero_43bits (x22) =? 0) | None => false end) &&
  (match ptl_general (sps_profile_tier_level (fst x1)) with Some x23 => (inbld_flag (x23) =? 0) | None => false end) &&
  (match ptl_general (sps_profile_tier_level (fst x1)) with Some x24 => (reserved_zero_bit (x24) =? 0) | None => false end) &&
  ((ptl_general_level_idc (sps_profile_tier_level (fst x1)) =? 93)) &&
  ((Z.of_nat (length (map fst (ptl_sub_layer_flags (sps_profile_tier_level (fst x1))))) =? 0)) &&
  ((Z.of_nat (length (map snd (ptl_sub_layer_flags (sps_profile_tier_level (fst x1))))) =? 0)) &&
  ((Z.of_nat (length (ptl_reserved_zero_2bits (sps_profile_tier_level (fst x1)))) =? 0)) &&
  ((Z.of_nat (length (map snd (ptl_sub_layers (sps_profile_tier_level (fst x1))))) =? 0)) &&
  ((sps_seq_parameter_set_id (fst x1) =? 0)) &&
  ((chroma_format_idc (fst x1) =? 1)) &&
  ((pic_width_in_luma_samples (fst x1) =? 1280)) &&
  ((pic_height_in_luma_samples (fst x1) =? 736)) &&
  ((conformance_window_flag (fst x1) =? 1)) &&
  ((conf_win_left_offset (fst x1) =? 0)) &&
  ((conf_win_right_offset (fst x1) =? 0)) &&
  ((conf_win_top_offset (fst x1) =? 0)) &&
  ((conf_win_bottom_offset (fst x1) =? 8)) &&
  ((bit_depth_luma_minus8 (fst x1) =? 0)) &&
  ((bit_depth_chroma_minus8 (fst x1) =? 0)) &&
  ((log2_max_pic_order_cnt_lsb_minus4 (fst x1) =? 4)) &&
  ((sps_sub_layer_ordering_info_present_flag (fst x1) =? 1)) &&
  (same (map max_dec_pic_buffering_minus1 (sps_ordering (fst x1))) [1]) &&
  (same (map max_num_reorder_pics (sps_ordering (fst x1))) [0]) &&
  (same (map max_latency_increase_plus1 (sps_ordering (fst x1))) [0]) &&
  ((log2_min_luma_coding_block_size_minus3 (fst x1) =? 0)) &&
  ((log2_diff_max_min_luma_coding_block_size (fst x1) =? 2)) &&
  ((log2_min_luma_transform_block_size_minus2 (fst x1) =? 0)) &&
  ((log2_diff_max_min_luma_transform_block_size (fst x1) =? 3)) &&
  ((max_transform_hierarchy_depth_inter (fst x1) =? 0)) &&
  ((max_transform_hierarchy_depth_intra (fst x1) =? 0)) &&
  ((scaling_list_enabled_flag (fst x1) =? 0)) &&
  ((amp_enabled_flag (fst x1) =? 0)) &&
  ((sample_adaptive_offset_enabled_flag (fst x1) =? 1)) &&
  ((pcm_enabled_flag (fst x1) =? 0)) &&
  ((num_short_term_ref_pic_sets (fst x1) =? 1)) &&
  (match nth_error (sps_st_ref_pic_set (fst x1)) 0 with Some x25 => (num_negative_pics (x25) =? 1) | None => false end) &&
  (match nth_error (sps_st_ref_pic_set (fst x1)) 0 with Some x26 => (num_positive_pics (x26) =? 0) | None => false end) &&
  (match nth_error (sps_st_ref_pic_set (fst x1)) 0 with Some x27 => same (map fst (rps_s0 x27)) [0] | None => false end) &&
  (match nth_error (sps_st_ref_pic_set (fst x1)) 0 with Some x28 => same (map fst (rps_s0 x28)) [0] | None => false end) &&
  ((long_term_ref_pics_present_flag (fst x1) =? 0)) &&
  ((sps_temporal_mvp_enabled_flag (fst x1) =? 1)) &&
  ((strong_intra_smoothing_enabled_flag (fst x1) =? 1)) &&
  ((vui_parameters_present_flag (fst x1) =? 1)) &&
  (match sps_vui_parameters (fst x1) with Some x29 => (aspect_ratio_info_present_flag (x29) =? 0) | None => false end) &&
  (match sps_vui_parameters (fst x1) with Some x30 => (overscan_info_present_flag (x30) =? 0) | None => false end) &&
  (match sps_vui_parameters (fst x1) with Some x31 => (video_signal_type_present_flag (x31) =? 1) | None => false end) &&
  (match sps_vui_parameters (fst x1) with Some x32 => (video_format (x32) =? 2) | None => false end) &&
  (match sps_vui_parameters (fst x1) with Some x33 => (video_full_range_flag (x33) =? 1) | None => false end) &&
  (match sps_vui_parameters (fst x1) with Some x34 => (colour_description_present_flag (x34) =? 1) | None => false end) &&
  (match sps_vui_parameters (fst x1) with Some x35 => (colour_primaries (x35) =? 5) | None => false end) &&
  (match sps_vui_parameters (fst x1) with Some x36 => (transfer_characteristics (x36) =? 6) | None => false end) &&
  (match sps_vui_parameters (fst x1) with Some x37 => (matrix_coeffs (x37) =? 6) | None => false end) &&
  (match sps_vui_parameters (fst x1) with Some x38 => (chroma_loc_info_present_flag (x38) =? 0) | None => false end) &&
  (match sps_vui_parameters (fst x1) with Some x39 => (neutral_chroma_indication_flag (x39) =? 0) | None => false end) &&
  (match sps_vui_parameters (fst x1) with Some x40 => (field_seq_flag (x40) =? 0) | None => false end) &&
  (match sps_vui_parameters (fst x1) with Some x41 => (frame_field_info_present_flag (x41) =? 0) | None => false end) &&
  (match sps_vui_parameters (fst x1) with Some x42 => (default_display_window_flag (x42) =? 0) | None => false end) &&
  (match sps_vui_parameters (fst x1) with Some x43 => (vui_timing_info_present_flag (x43) =? 0) | None => false end) &&
  (match sps_vui_parameters (fst x1) with Some x44 => (bitstream_restriction_flag (x44) =? 1) | None => false end) &&
  (match sps_vui_parameters (fst x1) with Some x45 => (tiles_fixed_structure_flag (x45) =? 0) | None => false end) &&
  (match sps_vui_parameters (fst x1) with Some x46 => (motion_vectors_over_pic_boundaries_flag (x46) =? 1) | None => false end) &&
  (match sps_vui_parameters (fst x1) with Some x47 => (restricted_ref_pic_lists_flag (x47) =? 1) | None => false end) &&
  (match sps_vui_parameters (fst x1) with Some x48 => (MSyntaxA.min_spatial_segmentation_idc x48 =? 0) | None => false end) &&
  (match sps_vui_parameters (fst x1) with Some x49 => (max_bytes_per_pic_denom (x49) =? 2) | None => false end) &&
  (match sps_vui_parameters (fst x1) with Some x50 => (max_bits_per_min_cu_denom (x50) =? 1) | None => false end) &&
  (match sps_vui_parameters (fst x1) with Some x51 => (log2_max_mv_length_horizontal (x51) =? 9) | None => false end) &&
  (match sps_vui_parameters (fst x1) with Some x52 => (log2_max_mv_length_vertical (x52) =? 8) | None => false end) &&
  ((sps_extension_present_flag (fst x1) =? 0)) &&
  ((sps_range_extension_flag (fst x1) =? 0)) &&
  ((sps_multilayer_extension_flag (fst x1) =? 0)) &&
  ((sps_3d_extension_flag (fst x1) =? 0)) &&
  ((sps_scc_extension_flag (fst x1) =? 0)) &&
  ((sps_extension_4bits (fst x1) =? 0)) &&
  ((getPicSizeInCtbsY (fst x1) =? 920)) &&
  true | _ => false end = true.
Proof. vm_compute. reflexivity. Qed.
Example T_sps_parser_TestSPSBadWidth :
  let buffer_ := [1; 1; 96; 0; 0; 3; 0; 176; 0; 0; 3; 0; 0; 3; 0; 93; 161; 2; 128; 128; 46; 31; 19; 150; 187; 147; 36; 187; 149; 130; 131; 3; 1; 118; 133; 9; 64] in
  match on_data ParseSps buffer_ with Done None =>
  true | _ => false end = true.
Proof. vm_compute. reflexivity. Qed.
Example T_sps_parser_TestSPSBadHeight :
  let buffer_ := [1; 1; 96; 0; 0; 3; 0; 176; 0; 0; 3; 0; 0; 3; 0; 93; 160; 2; 128; 128; 30; 31; 19; 150; 187; 147; 36; 187; 149; 130; 131; 3; 1; 118; 133; 9; 64] in
  match on_data ParseSps buffer_ with Done None =>
  true | _ => false end = true.
Proof. vm_compute. reflexivity. Qed.
Example T_sps_parser_TestComplexStRefPicSet :
  let buffer_ := [1; 1; 96; 0; 0; 0; 0; 0; 0; 0; 0; 0; 153; 160; 3; 192; 128; 17; 7; 249; 101; 38; 73; 27; 97; 165; 136; 170; 147; 19; 12; 190; 207; 175; 55; 229; 159; 94; 20; 70; 39; 46; 218; 192; 255; 255] in
  match on_data ParseSps buffer_ with Done (Some x1) =>
  ((sps_video_parameter_set_id (fst x1) =? 0)) &&
  ((sps_max_sub_layers_minus1 (fst x1) =? 0)) &&
  ((sps_temporal_id_nesting_flag (fst x1) =? 1)) &&
  (match ptl_general (sps_profile_tier_level (fst x1)) with Some x2 => (profile_space (x2) =? 0) | None => false end) &&
  (match ptl_general (sps_profile_tier_level (fst x1)) with Some x3 => (tier_flag (x3) =? 0) | None => false end) &&
  (match ptl_general (sps_profile_tier_level (fst x1)) with Some x4 => (profile_idc (x4) =? 1) | None => false end) &&
  (match ptl_general (sps_profile_tier_level (fst x1)) with Some x5 => same (profile_compatibility_flag (x5)) [0; 1; 1; 0; 0; 0; 0; 0; 0; 0; 0; 0; 0; 0; 0; 0; 0; 0; 0; 0; 0; 0; 0; 0; 0; 0; 0; 0; 0; 0; 0; 0] | None => false end) &&
  (match ptl_general (sps_profile_tier_level (fst x1)) with Some x6 => (progressive_source_flag (x6) =? 0) | None => false end) &&
  (match ptl_general (sps_profile_tier_level (fst x1)) with Some x7 => (interlaced_source_flag (x7) =? 0) | None => false end) &&
  (match ptl_general (sps_profile_tier_level (fst x1)) with Some x8 => (non_packed_constraint_flag (x8) =? 0) | None => false end) &&
  (match ptl_general (sps_profile_tier_level (fst x1)) with Some x9 => (frame_only_constraint_flag (x9) =? 0) | None => false end) &&
  (match ptl_general (sps_profile_tier_level (fst x1)) with Some x10 => (max_12bit_constraint_flag (x10) =? 0) | None => false end) &&
  (match ptl_general (sps_profile_tier_level (fst x1)) with Some x11 => (max_10bit_constraint_flag (x11) =? 0) | None => false end) &&
  (match ptl_general (sps_profile_tier_level (fst x1)) with Some x12 => (max_8bit_constraint_flag (x12) =? 0) | None => false end) &&
  (match ptl_general (sps_profile_tier_level (fst x1)) with Some x13 => (max_422chroma_constraint_flag (x13) =? 0) | None => false end) &&
  (match ptl_general (sps_profile_tier_level (fst x1)) with Some x14 => (max_420chroma_constraint_flag (x14) =? 0) | None => false end) &&
  (match ptl_general (sps_profile_tier_level (fst x1)) with Some x15 => (max_monochrome_constraint_flag (x15) =? 0) | None => false end) &&
  (match ptl_general (sps_profile_tier_level (fst x1)) with Some x16 => (intra_constraint_flag (x16) =? 0) | None => false end) &&
  (match ptl_general (sps_profile_tier_level (fst x1)) with Some x17 => (one_picture_only_constraint_flag (x17) =? 0) | None => false end) &&
  (match ptl_general (sps_profile_tier_level (fst x1)) with Some x18 => (lower_bit_rate_constraint_flag (x18) =? 0) | None => false end) &&
  (match ptl_general (sps_profile_tier_level (fst x1)) with Some x19 => (max_14bit_constraint_flag (x19) =? 0) | None => false end) &&
  (match ptl_general (sps_profile_tier_level (fst x1)) with Some x20 => (reserved_zero_33bits (x20) =? 0) | None => false end) &&
  (match ptl_general (sps_profile_tier_level (fst x1)) with Some x21 => (reserved_zero_34bits (x21) =? 0) | None => false end) &&
  (match ptl_general (sps_profile_tier_level (fst x1)) with Some x22 => (reserved_zero_43bits (x22) =? 0) | None => false end) &&
  (match ptl_general (sps_profile_tier_level (fst x1)) with Some x23 => (inbld_flag (x23) =? 0) | None => false end) &&
  (match ptl_general (sps_profile_tier_level (fst x1)) with Some x24 => (reserved_zero_bit (x24) =? 0) | None => false end) &&
  ((ptl_general_level_idc (sps_profile_tier_level (fst x1)) =? 153)) &&
  ((Z.of_nat (length (map fst (ptl_sub_layer_flags (sps_profile_tier_level (fst x1))))) =? 0)) &&
  ((Z.of_nat (length (map snd (ptl_sub_layer_flags (sps_profile_tier_level (fst x1))))) =? 0)) &&
  ((Z.of_nat (length (ptl_reserved_zero_2bits (sps_profile_tier_level (fst x1)))) =? 0)) &&
  ((Z.of_nat (length (map snd (ptl_sub_layers (sps_profile_tier_level (fst x1))))) =? 0)) &&
  ((sps_seq_parameter_set_id (fst x1) =? 0)) &&
  ((chroma_format_idc (fst x1) =? 1)) &&
  ((pic_width_in_luma_samples (fst x1) =? 1920)) &&
  ((pic_height_in_luma_samples (fst x1) =? 1088)) &&
  ((conformance_window_flag (fst x1) =? 1)) &&
  ((conf_win_left_offset (fst x1) =? 0)) &&
  ((conf_win_right_offset (fst x1) =? 0)) &&
  ((conf_win_top_offset (fst x1) =? 0)) &&
  ((conf_win_bottom_offset (fst x1) =? 0)) &&
  ((bit_depth_luma_minus8 (fst x1) =? 0)) &&
  ((bit_depth_chroma_minus8 (fst x1) =? 0)) &&
  ((log2_max_pic_order_cnt_lsb_minus4 (fst x1) =? 4)) &&
  ((sps_sub_layer_ordering_info_present_flag (fst x1) =? 1)) &&
  (same (map max_dec_pic_buffering_minus1 (sps_ordering (fst x1))) [4]) &&
  (same (map max_num_reorder_pics (sps_ordering (fst x1))) [3]) &&
  (same (map max_latency_increase_plus1 (sps_ordering (fst x1))) [0]) &&
  ((log2_min_luma_coding_block_size_minus3 (fst x1) =? 0)) &&
  ((log2_diff_max_min_luma_coding_block_size (fst x1) =? 3)) &&
  ((log2_min_luma_transform_block_size_minus2 (fst x1) =? 0)) &&
  ((log2_diff_max_min_luma_transform_block_size (fst x1) =? 3)) &&
  ((max_transform_hierarchy_depth_inter (fst x1) =? 2)) &&
  ((max_transform_hierarchy_depth_intra (fst x1) =? 2)) &&
  ((scaling_list_enabled_flag (fst x1) =? 0)) &&
  ((amp_enabled_flag (fst x1) =? 1)) &&
  ((sample_adaptive_offset_enabled_flag (fst x1) =? 1)) &&
  ((pcm_enabled_flag (fst x1) =? 0)) &&
  ((num_short_term_ref_pic_sets (fst x1) =? 12)) &&
  (match nth_error (sps_st_ref_pic_set (fst x1)) 0 with Some x25 => (num_negative_pics (x25) =? 4) | None => false end) &&
  (match nth_error (sps_st_ref_pic_set (fst x1)) 0 with Some x26 => (num_positive_pics (x26) =? 0) | None => false end) &&
  (match nth_error (sps_st_ref_pic_set (fst x1)) 0 with Some x27 => same (map fst (rps_s0 x27)) [7; 1; 1; 3] | None => false end) &&
  (match nth_error (sps_st_ref_pic_set (fst x1)) 0 with Some x28 => same (map snd (rps_s0 x28)) [1; 1; 1; 1] | None => false end) &&
  (match nth_error (sps_st_ref_pic_set (fst x1)) 0 with Some x29 => (Z.of_nat (length (map fst (rps_s1 x29))) =? 0) | None => false end) &&
  (match nth_error (sps_st_ref_pic_set (fst x1)) 0 with Some x30 => (Z.of_nat (length (map snd (rps_s1 x30))) =? 0) | None => false end) &&
  (match nth_error (sps_st_ref_pic_set (fst x1)) 1 with Some x31 => (inter_ref_pic_set_prediction_flag (x31) =? 1) | None => false end) &&
  (match nth_error (sps_st_ref_pic_set (fst x1)) 1 with Some x32 => (delta_rps_sign (x32) =? 0) | None => false end) &&
  (match nth_error (sps_st_ref_pic_set (fst x1)) 1 with Some x33 => (abs_delta_rps_minus1 (x33) =? 3) | None => false end) &&
  (match nth_error (sps_st_ref_pic_set (fst x1)) 1 with Some x34 => same (map fst (rps_flags x34)) [1; 1; 0; 0; 1] | None => false end) &&
  (match nth_error (sps_st_ref_pic_set (fst x1)) 1 with Some x35 => same (map snd (rps_flags x35)) [1; 1; 0; 0; 1] | None => false end) &&
  (match nth_error (sps_st_ref_pic_set (fst x1)) 2 with Some x36 => (inter_ref_pic_set_prediction_flag (x36) =? 1) | None => false end) &&
  (match nth_error (sps_st_ref_pic_set (fst x1)) 2 with Some x37 => (delta_rps_sign (x37) =? 0) | None => false end) &&
  (match nth_error (sps_st_ref_pic_set (fst x1)) 2 with Some x38 => (abs_delta_rps_minus1 (x38) =? 1) | None => false end) &&
  (match nth_error (sps_st_ref_pic_set (fst x1)) 2 with Some x39 => same (map fst (rps_flags x39)) [1; 1; 1; 1] | None => false end) &&
  (match nth_error (sps_st_ref_pic_set (fst x1)) 2 with Some x40 => same (map snd (rps_flags x40)) [1; 1; 1; 1] | None => false end) &&
  (match nth_error (sps_st_ref_pic_set (fst x1)) 3 with Some x41 => (inter_ref_pic_set_prediction_flag (x41) =? 1) | None => false end) &&
  (match nth_error (sps_st_ref_pic_set (fst x1)) 3 with Some x42 => (delta_rps_sign (x42) =? 0) | None => false end) &&
  (match nth_error (sps_st_ref_pic_set (fst x1)) 3 with Some x43 => (abs_delta_rps_minus1 (x43) =? 0) | None => false end) &&
  (match nth_error (sps_st_ref_pic_set (fst x1)) 3 with Some x44 => same (map fst (rps_flags x44)) [1; 0; 1; 1; 1] | None => false end) &&
  (match nth_error (sps_st_ref_pic_set (fst x1)) 3 with Some x45 => same (map snd (rps_flags x45)) [1; 0; 1; 1; 1] | None => false end) &&
  (match nth_error (sps_st_ref_pic_set (fst x1)) 4 with Some x46 => (inter_ref_pic_set_prediction_flag (x46) =? 1) | None => false end) &&
  (match nth_error (sps_st_ref_pic_set (fst x1)) 4 with Some x47 => (delta_rps_sign (x47) =? 1) | None => false end) &&
  (match nth_error (sps_st_ref_pic_set (fst x1)) 4 with Some x48 => (abs_delta_rps_minus1 (x48) =? 1) | None => false end) &&
  (match nth_error (sps_st_ref_pic_set (fst x1)) 4 with Some x49 => same (map fst (rps_flags x49)) [1; 1; 1; 1; 0] | None => false end) &&
  (match nth_error (sps_st_ref_pic_set (fst x1)) 4 with Some x50 => same (map snd (rps_flags x50)) [1; 1; 1; 1; 0] | None => false end) &&
  (match nth_error (sps_st_ref_pic_set (fst x1)) 5 with Some x51 => (inter_ref_pic_set_prediction_flag (x51) =? 1) | None => false end) &&
  (match nth_error (sps_st_ref_pic_set (fst x1)) 5 with Some x52 => (delta_rps_sign (x52) =? 1) | None => false end) &&
  (match nth_error (sps_st_ref_pic_set (fst x1)) 5 with Some x53 => (abs_delta_rps_minus1 (x53) =? 2) | None => false end) &&
  (match nth_error (sps_st_ref_pic_set (fst x1)) 5 with Some x54 => same (map fst (rps_flags x54)) [1; 1; 1; 1; 0] | None => false end) &&
  (match nth_error (sps_st_ref_pic_set (fst x1)) 5 with Some x55 => same (map snd (rps_flags x55)) [1; 1; 1; 1; 0] | None => false end) &&
  (match nth_error (sps_st_ref_pic_set (fst x1)) 6 with Some x56 => (inter_ref_pic_set_prediction_flag (x56) =? 1) | None => false end) &&
  (match nth_error (sps_st_ref_pic_set (fst x1)) 6 with Some x57 => (delta_rps_sign (x57) =? 0) | None => false end) &&
  (match nth_error (sps_st_ref_pic_set (fst x1)) 6 with Some x58 => (abs_delta_rps_minus1 (x58) =? 0) | None => false end) &&
  (match nth_error (sps_st_ref_pic_set (fst x1)) 6 with Some x59 => same (map fst (rps_flags x59)) [1; 0; 1; 1; 1] | None => false end) &&
  (match nth_error (sps_st_ref_pic_set (fst x1)) 6 with Some x60 => same (map snd (rps_flags x60)) [1; 0; 1; 1; 1] | None => false end) &&
  (match nth_error (sps_st_ref_pic_set (fst x1)) 7 with Some x61 => (inter_ref_pic_set_prediction_flag (x61) =? 1) | None => false end) &&
  (match nth_error (sps_st_ref_pic_set (fst x1)) 7 with Some x62 => (delta_rps_sign (x62) =? 1) | None => false end) &&
  (match nth_error (sps_st_ref_pic_set (fst x1)) 7 with Some x63 => (abs_delta_rps_minus1 (x63) =? 1) | None => false end) &&
  (match nth_error (sps_st_ref_pic_set (fst x1)) 7 with Some x64 => same (map fst (rps_flags x64)) [1; 1; 1; 1; 0] | None => false end) &&
  (match nth_error (sps_st_ref_pic_set (fst x1)) 7 with Some x65 => same (map snd (rps_flags x65)) [1; 1; 1; 1; 0] | None => false end) &&
  (match nth_error (sps_st_ref_pic_set (fst x1)) 8 with Some x66 => (inter_ref_pic_set_prediction_flag (x66) =? 0) | None => false end) &&
  (match nth_error (sps_st_ref_pic_set (fst x1)) 8 with Some x67 => (num_negative_pics (x67) =? 1) | None => false end) &&
  (match nth_error (sps_st_ref_pic_set (fst x1)) 8 with Some x68 => (num_positive_pics (x68) =? 0) | None => false end) &&
  (match nth_error (sps_st_ref_pic_set (fst x1)) 8 with Some x69 => same (map fst (rps_s0 x69)) [7] | None => false end) &&
  (match nth_error (sps_st_ref_pic_set (fst x1)) 8 with Some x70 => same (map snd (rps_s0 x70)) [1] | None => false end) &&
  (match nth_error (sps_st_ref_pic_set (fst x1)) 8 with Some x71 => (Z.of_nat (length (map fst (rps_s1 x71))) =? 0) | None => false end) &&
  (match nth_error (sps_st_ref_pic_set (fst x1)) 8 with Some x72 => (Z.of_nat (length (map snd (rps_s1 x72))) =? 0) | None => false end) &&
  (match nth_error (sps_st_ref_pic_set (fst x1)) 9 with Some x73 => (inter_ref_pic_set_prediction_flag (x73) =? 1) | None => false end) &&
  (match nth_error (sps_st_ref_pic_set (fst x1)) 9 with Some x74 => (delta_rps_sign (x74) =? 0) | None => false end) &&
  (match nth_error (sps_st_ref_pic_set (fst x1)) 9 with Some x75 => (abs_delta_rps_minus1 (x75) =? 3) | None => false end) &&
  (match nth_error (sps_st_ref_pic_set (fst x1)) 9 with Some x76 => same (map fst (rps_flags x76)) [1; 1] | None => false end) &&
  (match nth_error (sps_st_ref_pic_set (fst x1)) 9 with Some x77 => same (map snd (rps_flags x77)) [1; 1] | None => false end) &&
  (match nth_error (sps_st_ref_pic_set (fst x1)) 10 with Some x78 => (inter_ref_pic_set_prediction_flag (x78) =? 1) | None => false end) &&
  (match nth_error (sps_st_ref_pic_set (fst x1)) 10 with Some x79 => (delta_rps_sign (x79) =? 0) | None => false end) &&
  (match nth_error (sps_st_ref_pic_set (fst x1)) 10 with Some x80 => (abs_delta_rps_minus1 (x80) =? 1) | None => false end) &&
  (match nth_error (sps_st_ref_pic_set (fst x1)) 10 with Some x81 => same (map fst (rps_flags x81)) [1; 1; 1] | None => false end) &&
  (match nth_error (sps_st_ref_pic_set (fst x1)) 10 with Some x82 => same (map snd (rps_flags x82)) [1; 1; 1] | None => false end) &&
  (match nth_error (sps_st_ref_pic_set (fst x1)) 11 with Some x83 => (inter_ref_pic_set_prediction_flag (x83) =? 0) | None => false end) &&
  (match nth_error (sps_st_ref_pic_set (fst x1)) 11 with Some x84 => (num_negative_pics (x84) =? 0) | None => false end) &&
  (match nth_error (sps_st_ref_pic_set (fst x1)) 11 with Some x85 => (num_positive_pics (x85) =? 0) | None => false end) &&
  (match nth_error (sps_st_ref_pic_set (fst x1)) 11 with Some x86 => (Z.of_nat (length (map fst (rps_s0 x86))) =? 0) | None => false end) &&
  (match nth_error (sps_st_ref_pic_set (fst x1)) 11 with Some x87 => (Z.of_nat (length (map snd (rps_s0 x87))) =? 0) | None => false end) &&
  (match nth_error (sps_st_ref_pic_set (fst x1)) 11 with Some x88 => (Z.of_nat (length (map fst (rps_s1 x88))) =? 0) | None => false end) &&
  (match nth_error (sps_st_ref_pic_set (fst x1)) 11 with Some x89 => (Z.of_nat (length (map snd (rps_s1 x89))) =? 0) | None => false end) &&
  ((long_term_ref_pics_present_flag (fst x1) =? 0)) &&
  ((sps_temporal_mvp_enabled_flag (fst x1) =? 1)) &&
  ((strong_intra_smoothing_enabled_flag (fst x1) =? 1)) &&
  ((vui_parameters_present_flag (fst x1) =? 0)) &&
  ((sps_extension_present_flag (fst x1) =? 1)) &&
  ((sps_range_extension_flag (fst x1) =? 0)) &&
  ((sps_multilayer_extension_flag (fst x1) =? 1)) &&
  ((sps_3d_extension_flag (fst x1) =? 1)) &&
  ((sps_scc_extension_flag (fst x1) =? 0)) &&
  ((sps_extension_4bits (fst x1) =? 0)) &&
  ((getPicSizeInCtbsY (fst x1) =? 510)) &&
  true | _ => false end = true.
Proof. vm_compute. reflexivity. Qed.
(** * test/h265_sps_range_extension_parser_unittest.cc *)
Example T_sps_range_extension_parser_TestSampleSpsRangeExtension :
  let buffer_ := [170; 170] in
  match on_data ParseSpsRangeExtension buffer_ with Done (Some x1) =>
  ((transform_skip_rotation_enabled_flag (x1) =? 1)) &&
  ((transform_skip_context_enabled_flag (x1) =? 0)) &&
  ((implicit_rdpcm_enabled_flag (x1) =? 1)) &&
  ((explicit_rdpcm_enabled_flag (x1) =? 0)) &&
  ((extended_precision_processing_flag (x1) =? 1)) &&
  ((intra_smoothing_disabled_flag (x1) =? 0)) &&
  ((high_precision_offsets_enabled_flag (x1) =? 1)) &&
  ((persistent_rice_adaptation_enabled_flag (x1) =? 0)) &&
  ((cabac_bypass_alignment_enabled_flag (x1) =? 1)) &&
  true | _ => false end = true.
Proof. vm_compute. reflexivity. Qed.
(** * test/h265_sps_scc_extension_parser_unittest.cc *)
Example T_sps_scc_extension_parser_TestSampleSpsSccExtension :
  let buffer_ := [128] in
  match on_data (ParseSpsSccExtension 1 0 0) buffer_ with Done (Some x1) =>
  ((sps_curr_pic_ref_enabled_flag (x1) =? 1)) &&
  ((palette_mode_enabled_flag (x1) =? 0)) &&
  ((palette_max_size (x1) =? 0)) &&
  ((delta_palette_max_predictor_size (x1) =? 0)) &&
  ((sps_palette_predictor_initializers_present_flag (x1) =? 0)) &&
  ((sps_num_palette_predictor_initializers_minus1 (x1) =? 0)) &&
  ((Z.of_nat (length (sps_palette_predictor_initializers x1)) =? 0)) &&
  ((motion_vector_resolution_control_idc (x1) =? 0)) &&
  ((intra_boundary_filtering_disabled_flag (x1) =? 0)) &&
  true | _ => false end = true.
Proof. vm_compute. reflexivity. Qed.
(** * test/h265_st_ref_pic_set_parser_unittest.cc *)
Example T_st_ref_pic_set_parser_TestSampleStRefPicSet :
  let buffer_ := [93] in
  match on_data (ParseStRefPicSet 0 1 [] 1) buffer_ with Done (Some x1) =>
  ((num_negative_pics (x1) =? 1)) &&
  ((num_positive_pics (x1) =? 0)) &&
  (same (map fst (rps_s0 x1)) [0]) &&
  (same (map fst (rps_s0 x1)) [0]) &&
  true | _ => false end = true.
Proof. vm_compute. reflexivity. Qed.
Example T_st_ref_pic_set_parser_TestDeriveValuesOobBoundsCheck :
  match DeriveValues (mkRPS 0 0 0 0 [] 8 8 (repeat (0, 1) 8) (repeat (0, 1) 8)) 1 99 (repeat (1, 1) 17) (mkBB [] 0 0 0) with Fail _ => true | _ => false end = true.
Proof. vm_compute. reflexivity. Qed.
(** * test/h265_sub_layer_hrd_parameters_parser_unittest.cc *)
Example T_sub_layer_hrd_parameters_parser_TestSampleSubLayerHrdParameters :
  let buffer_ := [0; 1; 110; 54; 0; 1; 232; 72; 16] in
  match on_data (ParseSubLayerHrdParameters 1 0) buffer_ with Done (Some x1) =>
  (same (map bit_rate_value_minus1 x1) [46874]) &&
  (same (map cpb_size_value_minus1 x1) [124999]) &&
  (same (map cpb_size_du_value_minus1 x1) [0]) &&
  (same (map bit_rate_du_value_minus1 x1) [0]) &&
  (same (map cbr_flag x1) [0]) &&
  true | _ => false end = true.
Proof. vm_compute. reflexivity. Qed.
(** * test/h265_utils_unittest.cc *)
Example T_utils_TestGetSliceQpYIFrame :
  let buffer_ := [0; 0; 0; 1; 38; 1; 175; 9; 64; 251; 39; 91; 253; 93; 194; 77; 232; 178; 15; 205; 104; 219; 195; 65; 18; 46; 19; 141; 223; 102; 201; 31; 170; 212; 155; 141; 221; 226; 161; 218; 46; 189; 83; 116; 209; 187; 222; 84; 143; 165; 231; 47; 204; 247; 152; 214; 51; 213; 6; 1; 82; 132; 188; 167; 230; 2; 127; 233; 80; 10; 154; 96; 137; 160; 192; 180; 109; 96; 83; 229; 221; 147; 222; 3; 255; 168; 176; 77; 39; 165; 130; 186; 172; 99; 139; 111; 105; 127; 147; 178; 227; 12; 253; 41; 68; 66; 167; 19; 233; 236; 55; 187; 147; 224; 98; 169; 164; 68; 69; 89; 22; 246; 182; 91; 58; 219; 195] in
  let st1 := set_vps empty_state 0 (mkVPS 0 0 0 0 0 0 0 (mkPTL None 0 [] [] []) 0 [] 0 0 [] 0 0 0 0 0 0 [] 0, 0) in
  let st2 := set_sps st1 0 (mkSPS 0 0 0 (mkPTL None 0 [] [] []) 0 1 0 0 0 0 0 0 0 0 0 0 0 0 [] 0 0 0 0 0 0 0 0 None 0 1 0 0 0 0 0 0 0 [] 0 0 [] 0 0 0 None 0 0 0 0 0 0 None None None None, 0) in
  let st3 := set_pps st2 0 (mkPPS 0 0 0 0 0 0 0 0 0 0 0 0 0 0 0 0 0 0 0 0 0 0 0 0 0 [] [] 0 0 0 0 0 0 0 0 None 0 0 0 0 0 0 0 0 0 None None, 0) in
  match GetSliceQpY buffer_ st3 with Done (x4, st5) =>
  ((Z.of_nat (length (x4)) =? 1)) &&
  (match nth_error (x4) 0 with Some x6 => (x6 =? 35) | None => false end) &&
  true | _ => false end = true.
Proof. vm_compute. reflexivity. Qed.
Example T_utils_TestGetSliceQpYIFrameBroken :
  let buffer_ := [0; 0; 0; 1; 38; 1; 175] in
  let st1 := set_vps empty_state 0 (mkVPS 0 0 0 0 0 0 0 (mkPTL None 0 [] [] []) 0 [] 0 0 [] 0 0 0 0 0 0 [] 0, 0) in
  let st2 := set_sps st1 0 (mkSPS 0 0 0 (mkPTL None 0 [] [] []) 0 1 0 0 0 0 0 0 0 0 0 0 0 0 [] 0 0 0 0 0 0 0 0 None 0 1 0 0 0 0 0 0 0 [] 0 0 [] 0 0 0 None 0 0 0 0 0 0 None None None None, 0) in
  let st3 := set_pps st2 0 (mkPPS 0 0 0 0 0 0 0 0 0 0 0 0 0 0 0 0 0 0 0 0 0 0 0 0 0 [] [] 0 0 0 0 0 0 0 0 None 0 0 0 0 0 0 0 0 0 None None, 0) in
  match GetSliceQpY buffer_ st3 with Done (x4, st5) =>
  ((Z.of_nat (length (x4)) =? 0)) &&
  true | _ => false end = true.
Proof. vm_compute. reflexivity. Qed.
Example T_utils_TestGetSliceQpYPFrame :
  let buffer_ := [0; 0; 0; 1; 2; 1; 208; 15; 228; 22; 128; 244; 90; 180; 133; 107; 23; 170; 193; 148; 168; 159; 50; 17; 228; 68; 165; 253; 231; 128; 218; 234; 33; 76; 8; 35; 234; 88; 21; 163; 76; 26; 179; 128; 155; 99; 80; 17; 117; 154; 204; 6; 9; 105; 151; 117; 160; 2; 36; 34; 28; 6; 165; 105; 110; 186; 156; 121; 88; 30; 82; 168; 38; 254; 152; 111; 101; 238; 87; 16; 79; 103; 232; 67; 222; 142; 230; 64; 40; 54; 69; 6; 94; 232; 128; 52; 192; 6; 242; 22; 75; 120; 95; 152; 86; 204; 217; 89; 122; 243; 48; 93; 169; 199; 132; 74; 224; 22; 191; 7; 36; 50; 101; 189; 57; 226; 48; 191; 39; 211; 97; 37; 2; 174; 90; 161; 8; 155; 144; 20; 42; 9; 209; 74] in
  let st1 := set_vps empty_state 0 (mkVPS 0 0 0 0 0 0 0 (mkPTL None 0 [] [] []) 0 [] 0 0 [] 0 0 0 0 0 0 [] 0, 0) in
  let st2 := set_sps st1 0 (mkSPS 0 0 0 (mkPTL None 0 [] [] []) 0 1 0 0 0 0 0 0 0 0 0 0 0 0 [mkOI 6 0 0] 0 0 0 0 0 0 0 0 None 0 1 0 0 0 0 0 0 0 [] 0 0 [] 0 0 0 None 0 0 0 0 0 0 None None None None, 0) in
  let st3 := set_pps st2 0 (mkPPS 0 0 0 0 0 0 0 0 0 0 0 0 0 0 0 0 0 0 0 0 0 0 0 0 0 [] [] 0 0 0 0 0 0 0 0 None 0 0 0 0 0 0 0 0 0 None None, 0) in
  match GetSliceQpY buffer_ st3 with Done (x4, st5) =>
  ((Z.of_nat (length (x4)) =? 1)) &&
  (match nth_error (x4) 0 with Some x6 => (x6 =? 26) | None => false end) &&
  true | _ => false end = true.
Proof. vm_compute. reflexivity. Qed.
(** * test/h265_vps_parser_unittest.cc *)
Example T_vps_parser_TestSampleVPS :
  let buffer_ := [12; 1; 255; 255; 1; 96; 0; 0; 3; 0; 176; 0; 0; 3; 0; 0; 3; 0; 93; 172; 89; 0] in
  match on_data ParseVps buffer_ with Done (Some x1) =>
  ((vps_video_parameter_set_id (fst x1) =? 0)) &&
  ((vps_base_layer_internal_flag (fst x1) =? 1)) &&
  ((vps_base_layer_available_flag (fst x1) =? 1)) &&
  ((vps_max_layers_minus1 (fst x1) =? 0)) &&
  ((vps_max_sub_layers_minus1 (fst x1) =? 0)) &&
  ((vps_temporal_id_nesting_flag (fst x1) =? 1)) &&
  ((vps_reserved_0xffff_16bits (fst x1) =? 65535)) &&
  (match ptl_general (vps_profile_tier_level (fst x1)) with Some x2 => (profile_space (x2) =? 0) | None => false end) &&
  (match ptl_general (vps_profile_tier_level (fst x1)) with Some x3 => (tier_flag (x3) =? 0) | None => false end) &&
  (match ptl_general (vps_profile_tier_level (fst x1)) with Some x4 => (profile_idc (x4) =? 1) | None => false end) &&
  (match ptl_general (vps_profile_tier_level (fst x1)) with Some x5 => same (profile_compatibility_flag (x5)) [0; 1; 1; 0; 0; 0; 0; 0; 0; 0; 0; 0; 0; 0; 0; 0; 0; 0; 0; 0; 0; 0; 0; 0; 0; 0; 0; 0; 0; 0; 0; 0] | None => false end) &&
  (match ptl_general (vps_profile_tier_level (fst x1)) with Some x6 => (progressive_source_flag (x6) =? 1) | None => false end) &&
  (match ptl_general (vps_profile_tier_level (fst x1)) with Some x7 => (interlaced_source_flag (x7) =? 0) | None => false end) &&
  (match ptl_general (vps_profile_tier_level (fst x1)) with Some x8 => (non_packed_constraint_flag (x8) =? 1) | None => false end) &&
  (match ptl_general (vps_profile_tier_level (fst x1)) with Some x9 => (frame_only_constraint_flag (x9) =? 1) | None => false end) &&
  (match ptl_general (vps_profile_tier_level (fst x1)) with Some x10 => (max_12bit_constraint_flag (x10) =? 0) | None => false end) &&
  (match ptl_general (vps_profile_tier_level (fst x1)) with Some x11 => (max_10bit_constraint_flag (x11) =? 0) | None => false end) &&
  (match ptl_general (vps_profile_tier_level (fst x1)) with Some x12 => (max_8bit_constraint_flag (x12) =? 0) | None => false end) &&
  (match ptl_general (vps_profile_tier_level (fst x1)) with Some x13 => (max_422chroma_constraint_flag (x13) =? 0) | None => false end) &&
  (match ptl_general (vps_profile_tier_level (fst x1)) with Some x14 => (max_420chroma_constraint_flag (x14) =? 0) | None => false end) &&
  (match ptl_general (vps_profile_tier_level (fst x1)) with Some x15 => (max_monochrome_constraint_flag (x15) =? 0) | None => false end) &&
  (match ptl_general (vps_profile_tier_level (fst x1)) with Some x16 => (intra_constraint_flag (x16) =? 0) | None => false end) &&
  (match ptl_general (vps_profile_tier_level (fst x1)) with Some x17 => (one_picture_only_constraint_flag (x17) =? 0) | None => false end) &&
  (match ptl_general (vps_profile_tier_level (fst x1)) with Some x18 => (lower_bit_rate_constraint_flag (x18) =? 0) | None => false end) &&
  (match ptl_general (vps_profile_tier_level (fst x1)) with Some x19 => (max_14bit_constraint_flag (x19) =? 0) | None => false end) &&
  (match ptl_general (vps_profile_tier_level (fst x1)) with Some x20 => (reserved_zero_33bits (x20) =? 0) | None => false end) &&
  (match ptl_general (vps_profile_tier_level (fst x1)) with Some x21 => (reserved_zero_34bits (x21) =? 0) | None => false end) &&
  (match ptl_general (vps_profile_tier_level (fst x1)) with Some x22 => (reserved_zero_43bits (x22) =? 0) | None => false end) &&
  (match ptl_general (vps_profile_tier_level (fst x1)) with Some x23 => (inbld_flag (x23) =? 0) | None => false end) &&
  (match ptl_general (vps_profile_tier_level (fst x1)) with Some x24 => (reserved_zero_bit (x24) =? 0) | None => false end) &&
  ((ptl_general_level_idc (vps_profile_tier_level (fst x1)) =? 93)) &&
  ((Z.of_nat (length (map fst (ptl_sub_layer_flags (vps_profile_tier_level (fst x1))))) =? 0)) &&
  ((Z.of_nat (length (map snd (ptl_sub_layer_flags (vps_profile_tier_level (fst x1))))) =? 0)) &&
  ((Z.of_nat (length (ptl_reserved_zero_2bits (vps_profile_tier_level (fst x1)))) =? 0)) &&
  ((Z.of_nat (length (map snd (ptl_sub_layers (vps_profile_tier_level (fst x1))))) =? 0)) &&
  ((vps_sub_layer_ordering_info_present_flag (fst x1) =? 1)) &&
  (same (map max_dec_pic_buffering_minus1 (vps_ordering (fst x1))) [1]) &&
  (same (map max_num_reorder_pics (vps_ordering (fst x1))) [0]) &&
  (same (map max_latency_increase_plus1 (vps_ordering (fst x1))) [0]) &&
  ((vps_max_layer_id (fst x1) =? 5)) &&
  ((vps_num_layer_sets_minus1 (fst x1) =? 0)) &&
  ((Z.of_nat (length (layer_id_included_flag (fst x1))) =? 0)) &&
  ((vps_timing_info_present_flag (fst x1) =? 0)) &&
  ((vps_num_units_in_tick (fst x1) =? 0)) &&
  ((vps_time_scale (fst x1) =? 0)) &&
  ((vps_poc_proportional_to_timing_flag (fst x1) =? 0)) &&
  ((vps_num_ticks_poc_diff_one_minus1 (fst x1) =? 0)) &&
  ((vps_num_hrd_parameters (fst x1) =? 0)) &&
  ((Z.of_nat (length (map hrd_layer_set_idx (vps_hrds (fst x1)))) =? 0)) &&
  ((Z.of_nat (length (map cprms_present_flag (vps_hrds (fst x1)))) =? 0)) &&
  ((vps_extension_flag (fst x1) =? 0)) &&
  ((snd x1 =? 0)) &&
  true | _ => false end = true.
Proof. vm_compute. reflexivity. Qed.
Example T_vps_parser_TestSampleVPS2 :
  let buffer_ := [12; 1; 255; 255; 1; 96; 0; 0; 3; 0; 176; 0; 0; 3; 0; 0; 3; 0; 93; 172; 86; 7; 228; 0] in
  match on_data ParseVps buffer_ with Done (Some x1) =>
  ((vps_video_parameter_set_id (fst x1) =? 0)) &&
  ((vps_base_layer_internal_flag (fst x1) =? 1)) &&
  ((vps_base_layer_available_flag (fst x1) =? 1)) &&
  ((vps_max_layers_minus1 (fst x1) =? 0)) &&
  ((vps_max_sub_layers_minus1 (fst x1) =? 0)) &&
  ((vps_temporal_id_nesting_flag (fst x1) =? 1)) &&
  ((vps_reserved_0xffff_16bits (fst x1) =? 65535)) &&
  (match ptl_general (vps_profile_tier_level (fst x1)) with Some x2 => (profile_space (x2) =? 0) | None => false end) &&
  (match ptl_general (vps_profile_tier_level (fst x1)) with Some x3 => (tier_flag (x3) =? 0) | None => false end) &&
  (match ptl_general (vps_profile_tier_level (fst x1)) with Some x4 => (profile_idc (x4) =? 1) | None => false end) &&
  (match ptl_general (vps_profile_tier_level (fst x1)) with Some x5 => same (profile_compatibility_flag (x5)) [0; 1; 1; 0; 0; 0; 0; 0; 0; 0; 0; 0; 0; 0; 0; 0; 0; 0; 0; 0; 0; 0; 0; 0; 0; 0; 0; 0; 0; 0; 0; 0] | None => false end) &&
  (match ptl_general (vps_profile_tier_level (fst x1)) with Some x6 => (progressive_source_flag (x6) =? 1) | None => false end) &&
  (match ptl_general (vps_profile_tier_level (fst x1)) with Some x7 => (interlaced_source_flag (x7) =? 0) | None => false end) &&
  (match ptl_general (vps_profile_tier_level (fst x1)) with Some x8 => (non_packed_constraint_flag (x8) =? 1) | None => false end) &&
  (match ptl_general (vps_profile_tier_level (fst x1)) with Some x9 => (frame_only_constraint_flag (x9) =? 1) | None => false end) &&
  (match ptl_general (vps_profile_tier_level (fst x1)) with Some x10 => (max_12bit_constraint_flag (x10) =? 0) | None => false end) &&
  (match ptl_general (vps_profile_tier_level (fst x1)) with Some x11 => (max_10bit_constraint_flag (x11) =? 0) | None => false end) &&
  (match ptl_general (vps_profile_tier_level (fst x1)) with Some x12 => (max_8bit_constraint_flag (x12) =? 0) | None => false end) &&
  (match ptl_general (vps_profile_tier_level (fst x1)) with Some x13 => (max_422chroma_constraint_flag (x13) =? 0) | None => false end) &&
  (match ptl_general (vps_profile_tier_level (fst x1)) with Some x14 => (max_420chroma_constraint_flag (x14) =? 0) | None => false end) &&
  (match ptl_general (vps_profile_tier_level (fst x1)) with Some x15 => (max_monochrome_constraint_flag (x15) =? 0) | None => false end) &&
  (match ptl_general (vps_profile_tier_level (fst x1)) with Some x16 => (intra_constraint_flag (x16) =? 0) | None => false end) &&
  (match ptl_general (vps_profile_tier_level (fst x1)) with Some x17 => (one_picture_only_constraint_flag (x17) =? 0) | None => false end) &&
  (match ptl_general (vps_profile_tier_level (fst x1)) with Some x18 => (lower_bit_rate_constraint_flag (x18) =? 0) | None => false end) &&
  (match ptl_general (vps_profile_tier_level (fst x1)) with Some x19 => (max_14bit_constraint_flag (x19) =? 0) | None => false end) &&
  (match ptl_general (vps_profile_tier_level (fst x1)) with Some x20 => (reserved_zero_33bits (x20) =? 0) | None => false end) &&
  (match ptl_general (vps_profile_tier_level (fst x1)) with Some x21 => (reserved_zero_34bits (x21) =? 0) | None => false end) &&
  (match ptl_general (vps_profile_tier_level (fst x1)) with Some x22 => (reserved_zero_43bits (x22) =? 0) | None => false end) &&
  (match ptl_general (vps_profile_tier_level (fst x1)) with Some x23 => (inbld_flag (x23) =? 0) | None => false end) &&
  (match ptl_general (vps_profile_tier_level (fst x1)) with Some x24 => (reserved_zero_bit (x24) =? 0) | None => false end) &&
  ((ptl_general_level_idc (vps_profile_tier_level (fst x1)) =? 93)) &&
  ((Z.of_nat (length (map fst (ptl_sub_layer_flags (vps_profile_tier_level (fst x1))))) =? 0)) &&
  ((Z.of_nat (length (map snd (ptl_sub_layer_flags (vps_profile_tier_level (fst x1))))) =? 0)) &&
  ((Z.of_nat (length (ptl_reserved_zero_2bits (vps_profile_tier_level (fst x1)))) =? 0)) &&
  ((Z.of_nat (length (map snd (ptl_sub_layers (vps_profile_tier_level (fst x1))))) =? 0)) &&
  ((vps_sub_layer_ordering_info_present_flag (fst x1) =? 1)) &&
  (same (map max_dec_pic_buffering_minus1 (vps_ordering (fst x1))) [1]) &&
  (same (map max_num_reorder_pics (vps_ordering (fst x1))) [0]) &&
  (same (map max_latency_increase_plus1 (vps_ordering (fst x1))) [0]) &&
  ((vps_max_layer_id (fst x1) =? 5)) &&
  ((vps_num_layer_sets_minus1 (fst x1) =? 2)) &&
  ((Z.of_nat (length (layer_id_included_flag (fst x1))) =? 2)) &&
  (match nth_error (layer_id_included_flag (fst x1)) 0 with Some x25 => same (x25) [0; 0; 0; 0; 0; 0] | None => false end) &&
  (match nth_error (layer_id_included_flag (fst x1)) 1 with Some x26 => same (x26) [1; 1; 1; 1; 1; 1] | None => false end) &&
  ((vps_timing_info_present_flag (fst x1) =? 0)) &&
  ((vps_num_units_in_tick (fst x1) =? 0)) &&
  ((vps_time_scale (fst x1) =? 0)) &&
  ((vps_poc_proportional_to_timing_flag (fst x1) =? 0)) &&
  ((vps_num_ticks_poc_diff_one_minus1 (fst x1) =? 0)) &&
  ((vps_num_hrd_parameters (fst x1) =? 0)) &&
  ((Z.of_nat (length (map hrd_layer_set_idx (vps_hrds (fst x1)))) =? 0)) &&
  ((Z.of_nat (length (map cprms_present_flag (vps_hrds (fst x1)))) =? 0)) &&
  ((vps_extension_flag (fst x1) =? 0)) &&
  ((snd x1 =? 0)) &&
  true | _ => false end = true.
Proof. vm_compute. reflexivity. Qed.
(** * test/h265_vui_parameters_parser_unittest.cc *)
Example T_vui_parameters_parser_TestSampleVuiParameters :
  let buffer_ := [43; 5; 6; 6; 2; 237; 10; 18] in
  match on_data (ParseVuiParameters 0) buffer_ with Done (Some x1) =>
  ((aspect_ratio_info_present_flag (x1) =? 0)) &&
  ((overscan_info_present_flag (x1) =? 0)) &&
  ((video_signal_type_present_flag (x1) =? 1)) &&
  ((video_format (x1) =? 2)) &&
  ((video_full_range_flag (x1) =? 1)) &&
  ((colour_description_present_flag (x1) =? 1)) &&
  ((colour_primaries (x1) =? 5)) &&
  ((transfer_characteristics (x1) =? 6)) &&
  ((matrix_coeffs (x1) =? 6)) &&
  ((chroma_loc_info_present_flag (x1) =? 0)) &&
  ((neutral_chroma_indication_flag (x1) =? 0)) &&
  ((field_seq_flag (x1) =? 0)) &&
  ((frame_field_info_present_flag (x1) =? 0)) &&
  ((default_display_window_flag (x1) =? 0)) &&
  ((vui_timing_info_present_flag (x1) =? 0)) &&
  ((bitstream_restriction_flag (x1) =? 1)) &&
  ((tiles_fixed_structure_flag (x1) =? 0)) &&
  ((motion_vectors_over_pic_boundaries_flag (x1) =? 1)) &&
  ((restricted_ref_pic_lists_flag (x1) =? 1)) &&
  ((MSyntaxA.min_spatial_segmentation_idc x1 =? 0)) &&
  ((max_bytes_per_pic_denom (x1) =? 2)) &&
  ((max_bits_per_min_cu_denom (x1) =? 1)) &&
  ((log2_max_mv_length_horizontal (x1) =? 9)) &&
  ((log2_max_mv_length_vertical (x1) =? 8)) &&
  true | _ => false end = true.
Proof. vm_compute. reflexivity. Qed.
Example T_vui_parameters_parser_TestSampleVuiParameters2 :
  let buffer_ := [255; 128; 64; 0; 58; 180; 4; 0; 0; 15; 164; 0; 1; 212; 192; 32] in
  match on_data (ParseVuiParameters 0) buffer_ with Done (Some x1) =>
  ((aspect_ratio_info_present_flag (x1) =? 1)) &&
  ((aspect_ratio_idc (x1) =? 255)) &&
  ((sar_width (x1) =? 128)) &&
  ((sar_height (x1) =? 117)) &&
  ((overscan_info_present_flag (x1) =? 0)) &&
  ((video_signal_type_present_flag (x1) =? 1)) &&
  ((video_format (x1) =? 5)) &&
  ((video_full_range_flag (x1) =? 0)) &&
  ((colour_description_present_flag (x1) =? 0)) &&
  ((chroma_loc_info_present_flag (x1) =? 0)) &&
  ((neutral_chroma_indication_flag (x1) =? 0)) &&
  ((field_seq_flag (x1) =? 0)) &&
  ((frame_field_info_present_flag (x1) =? 0)) &&
  ((default_display_window_flag (x1) =? 0)) &&
  ((vui_timing_info_present_flag (x1) =? 1)) &&
  ((vui_num_units_in_tick (x1) =? 1001)) &&
  ((vui_time_scale (x1) =? 30000)) &&
  ((vui_poc_proportional_to_timing_flag (x1) =? 0)) &&
  ((vui_hrd_parameters_present_flag (x1) =? 0)) &&
  ((bitstream_restriction_flag (x1) =? 0)) &&
  true | _ => false end = true.
Proof. vm_compute. reflexivity. Qed.
Example T_vui_parameters_parser_TestSampleVuiParametersNvenc :
  let buffer_ := [128; 128; 128; 0; 0; 0; 128; 0; 0; 30; 48; 2; 239; 40; 128; 0; 183; 27; 0; 0; 244; 36; 0] in
  match on_data (ParseVuiParameters 0) buffer_ with Done (Some x1) =>
  ((aspect_ratio_info_present_flag (x1) =? 1)) &&
  ((aspect_ratio_idc (x1) =? 1)) &&
  ((sar_width (x1) =? 0)) &&
  ((sar_height (x1) =? 0)) &&
  ((overscan_info_present_flag (x1) =? 0)) &&
  ((video_signal_type_present_flag (x1) =? 0)) &&
  ((video_format (x1) =? 0)) &&
  ((video_full_range_flag (x1) =? 0)) &&
  ((colour_description_present_flag (x1) =? 0)) &&
  ((chroma_loc_info_present_flag (x1) =? 0)) &&
  ((neutral_chroma_indication_flag (x1) =? 0)) &&
  ((field_seq_flag (x1) =? 0)) &&
  ((frame_field_info_present_flag (x1) =? 0)) &&
  ((default_display_window_flag (x1) =? 0)) &&
  ((vui_timing_info_present_flag (x1) =? 1)) &&
  ((vui_num_units_in_tick (x1) =? 1)) &&
  ((vui_time_scale (x1) =? 60)) &&
  ((vui_poc_proportional_to_timing_flag (x1) =? 0)) &&
  ((vui_hrd_parameters_present_flag (x1) =? 1)) &&
  ((bitstream_restriction_flag (x1) =? 0)) &&
  let x2 := vui_hrd_parameters x1 in
  (match x2 with Some _ => true | None => false end) &&
  (match x2 with Some x3 => (nal_hrd_parameters_present_flag (x3) =? 1) | None => false end) &&
  (match x2 with Some x4 => (vcl_hrd_parameters_present_flag (x4) =? 0) | None => false end) &&
  (match x2 with Some x5 => (sub_pic_hrd_params_present_flag (x5) =? 0) | None => false end) &&
  (match x2 with Some x6 => (tick_divisor_minus2 (x6) =? 0) | None => false end) &&
  (match x2 with Some x7 => (du_cpb_removal_delay_increment_length_minus1 (x7) =? 0) | None => false end) &&
  (match x2 with Some x8 => (sub_pic_cpb_params_in_pic_timing_sei_flag (x8) =? 0) | None => false end) &&
  (match x2 with Some x9 => (dpb_output_delay_du_length_minus1 (x9) =? 0) | None => false end) &&
  (match x2 with Some x10 => (bit_rate_scale (x10) =? 0) | None => false end) &&
  (match x2 with Some x11 => (cpb_size_scale (x11) =? 0) | None => false end) &&
  (match x2 with Some x12 => (cpb_size_du_scale (x12) =? 0) | None => false end) &&
  (match x2 with Some x13 => (initial_cpb_removal_delay_length_minus1 (x13) =? 23) | None => false end) &&
  (match x2 with Some x14 => (au_cpb_removal_delay_length_minus1 (x14) =? 15) | None => false end) &&
  (match x2 with Some x15 => (dpb_output_delay_length_minus1 (x15) =? 5) | None => false end) &&
  (match x2 with Some x16 => same (map fixed_pic_rate_general_flag (hrd_sub_layers x16)) [0] | None => false end) &&
  (match x2 with Some x17 => same (map fixed_pic_rate_within_cvs_flag (hrd_sub_layers x17)) [0] | None => false end) &&
  (match x2 with Some x18 => same (map elemental_duration_in_tc_minus1 (hrd_sub_layers x18)) [0] | None => false end) &&
  (match x2 with Some x19 => same (map low_delay_hrd_flag (hrd_sub_layers x19)) [0] | None => false end) &&
  (match x2 with Some x20 => same (map cpb_cnt_minus1 (hrd_sub_layers x20)) [0] | None => false end) &&
  match x2 with Some x21 =>
  let x22 := flat_map (fun s => match sub_layer_nal_hrd s with Some l => [l] | None => [] end ++ match sub_layer_vcl_hrd s with Some l => [l] | None => [] end) (hrd_sub_layers x21) in
  ((Z.of_nat (length (x22)) =? 1)) &&
  match x2 with Some x23 =>
  let x24 := nth_error (flat_map (fun s => match sub_layer_nal_hrd s with Some l => [l] | None => [] end ++ match sub_layer_vcl_hrd s with Some l => [l] | None => [] end) (hrd_sub_layers x23)) 0 in
  (match x24 with Some _ => true | None => false end) &&
  (match x24 with Some x25 => same (map bit_rate_value_minus1 x25) [46874] | None => false end) &&
  (match x24 with Some x26 => same (map cpb_size_value_minus1 x26) [124999] | None => false end) &&
  (match x24 with Some x27 => same (map cpb_size_du_value_minus1 x27) [0] | None => false end) &&
  (match x24 with Some x28 => same (map bit_rate_du_value_minus1 x28) [0] | None => false end) &&
  (match x24 with Some x29 => same (map cbr_flag x29) [0] | None => false end) &&
  true | None => false end | None => false end | _ => false end = true.
Proof. vm_compute. reflexivity. Qed.
(** Not translated:
    T_configuration_box_parser_TestSampleConfigurationBox: configuration_box->configurationVersion
    T_configuration_box_parser_TestSampleConfigurationBox: configuration_box->reserved1
    T_configuration_box_parser_TestSampleConfigurationBox: configuration_box->reserved2
    T_configuration_box_parser_TestSampleConfigurationBox: configuration_box->reserved3
    T_configuration_box_parser_TestSampleConfigurationBox: configuration_box->reserved4
    T_configuration_box_parser_TestSampleConfigurationBox: configuration_box->reserved5
    T_configuration_box_parser_TestSampleConfigurationBox: configuration_box->reserved6
    T_nal_unit_parser_TestSampleNalUnit: char checksum_printable[64] = {}
    T_nal_unit_parser_TestSampleNalUnit: nal_unit->checksum->fdump(checksum_printable, 64)
    T_nal_unit_parser_TestSampleNalUnit: EXPECT_STREQ(checksum_printable, "bfa24594")
    T_rtp_fu_parser_TestSampleStart: slice_segment_header->nal_unit_type
    T_slice_parser_TestSampleSlicePpsId15: slice_segment_header->nal_unit_type
*)
