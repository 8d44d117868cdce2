(** Model of GetProfileType. *)
From Coq Require Import ZArith List Bool.
From Verif Require Import MBase Syntax MSyntaxA.
Open Scope Z_scope.

(** include/h265_common.h:87-156 enum ProfileType *)
Definition PT_UNSPECIFIED := 0.
Definition PT_MAIN := 1.
Definition PT_MAIN_10 := 2.
Definition PT_MAIN_STILL_PICTURE := 3.
Definition PT_FREXT := 4.
Definition PT_HIGH_THROUGHPUT := 5.
Definition PT_MULTIVIEW_MAIN := 6.
Definition PT_SCALABLE := 7.
Definition PT__3D_MAIN := 8.
Definition PT_SCREEN_EXTENDED := 9.
Definition PT_MULTILAYER := 10.
Definition PT_SCREEN_EXTENDED_HIGH_THROUGHPUT := 11.
Definition PT_MULTIVIEW_EXTENDED := 12.
Definition PT_MULTIVIEW_EXTENDED_10 := 13.
Definition PT_MAIN_10_STILL_PICTURE := 100.
Definition PT_MONOCHROME := 101.
Definition PT_MONOCHROME_10 := 102.
Definition PT_MONOCHROME_12 := 103.
Definition PT_MONOCHROME_16 := 104.
Definition PT_MAIN_12 := 105.
Definition PT_MAIN_422_10 := 106.
Definition PT_MAIN_422_12 := 107.
Definition PT_MAIN_444 := 108.
Definition PT_MAIN_444_10 := 109.
Definition PT_MAIN_444_12 := 110.
Definition PT_MAIN_INTRA := 111.
Definition PT_MAIN_10_INTRA := 112.
Definition PT_MAIN_12_INTRA := 113.
Definition PT_MAIN_422_10_INTRA := 114.
Definition PT_MAIN_422_12_INTRA := 115.
Definition PT_MAIN_444_INTRA := 116.
Definition PT_MAIN_444_10_INTRA := 117.
Definition PT_MAIN_444_12_INTRA := 118.
Definition PT_MAIN_444_16_INTRA := 119.
Definition PT_MAIN_444_STILL_PICTURE := 120.
Definition PT_MAIN_444_16_STILL_PICTURE := 121.
Definition PT_HIGH_THROUGHPUT_444 := 122.
Definition PT_HIGH_THROUGHPUT_444_10 := 123.
Definition PT_HIGH_THROUGHPUT_444_14 := 124.
Definition PT_HIGH_THROUGHPUT_444_16_INTRA := 125.
Definition PT_SCALABLE_MAIN := 126.
Definition PT_SCALABLE_MAIN_10 := 127.
Definition PT_SCREEN_EXTENDED_MAIN := 128.
Definition PT_SCREEN_EXTENDED_MAIN_10 := 129.
Definition PT_SCREEN_EXTENDED_MAIN_444 := 130.
Definition PT_SCREEN_EXTENDED_MAIN_444_10 := 131.
Definition PT_SCREEN_EXTENDED_HIGH_THROUGHPUT_444 := 132.
Definition PT_SCREEN_EXTENDED_HIGH_THROUGHPUT_444_10 := 133.
Definition PT_SCREEN_EXTENDED_HIGH_THROUGHPUT_444_14 := 134.
Definition PT_MONOCHROME_STILL_PICTURE := 150.
Definition PT_MONOCHROME_10_STILL_PICTURE := 151.
Definition PT_MAIN_444_10_STILL_PICTURE := 152.

(** src/h265_profile_tier_level_parser.cc:308-813 GetProfileType: the switch on profile_idc is a chain of
    ifs; the else-if chains are kept in order with their conditions (the nested block of lines 578-623 is the last
    else of its chain). *)
Definition GetProfileType (s : profile_info) : Z :=
  let f14 := max_14bit_constraint_flag s in
  let f12 := max_12bit_constraint_flag s in
  let f10 := max_10bit_constraint_flag s in
  let f8 := max_8bit_constraint_flag s in
  let c422 := max_422chroma_constraint_flag s in
  let c420 := max_420chroma_constraint_flag s in
  let mono := max_monochrome_constraint_flag s in
  let intra := intra_constraint_flag s in
  let one := one_picture_only_constraint_flag s in
  let low := lower_bit_rate_constraint_flag s in
  if nz (profile_space s) then PT_UNSPECIFIED else
  if profile_idc s =? 1 then
    PT_MAIN
  else
  if profile_idc s =? 2 then
    if (one =? 1) then PT_MAIN_10_STILL_PICTURE else
    PT_MAIN_10
  else
  if profile_idc s =? 3 then
    PT_MAIN_STILL_PICTURE
  else
  if profile_idc s =? 4 then
    if (f12 =? 1) && (f10 =? 1) && (f8 =? 1) && (c422 =? 1) && (c420 =? 1) && (mono =? 1) && (intra =? 0) && (one =? 0) && (low =? 1) then PT_MONOCHROME else
    if (f12 =? 1) && (f10 =? 1) && (f8 =? 0) && (c422 =? 1) && (c420 =? 1) && (mono =? 1) && (intra =? 0) && (one =? 0) && (low =? 1) then PT_MONOCHROME_10 else
    if (f12 =? 1) && (f10 =? 0) && (f8 =? 0) && (c422 =? 1) && (c420 =? 1) && (mono =? 1) && (intra =? 0) && (one =? 0) && (low =? 1) then PT_MONOCHROME_12 else
    if (f12 =? 0) && (f10 =? 0) && (f8 =? 0) && (c422 =? 1) && (c420 =? 1) && (mono =? 1) && (intra =? 0) && (one =? 0) && (low =? 1) then PT_MONOCHROME_16 else
    if (f12 =? 1) && (f10 =? 0) && (f8 =? 0) && (c422 =? 1) && (c420 =? 1) && (mono =? 0) && (intra =? 0) && (one =? 0) && (low =? 1) then PT_MAIN_12 else
    if (f12 =? 1) && (f10 =? 1) && (f8 =? 0) && (c422 =? 1) && (c420 =? 0) && (mono =? 0) && (intra =? 0) && (one =? 0) && (low =? 1) then PT_MAIN_422_10 else
    if (f12 =? 1) && (f10 =? 0) && (f8 =? 0) && (c422 =? 1) && (c420 =? 0) && (mono =? 0) && (intra =? 0) && (one =? 0) && (low =? 1) then PT_MAIN_422_12 else
    if (f12 =? 1) && (f10 =? 1) && (f8 =? 1) && (c422 =? 0) && (c420 =? 0) && (mono =? 0) && (intra =? 0) && (one =? 0) && (low =? 1) then PT_MAIN_444 else
    if (f12 =? 1) && (f10 =? 1) && (f8 =? 0) && (c422 =? 0) && (c420 =? 0) && (mono =? 0) && (intra =? 0) && (one =? 0) && (low =? 1) then PT_MAIN_444_10 else
    if (f12 =? 1) && (f10 =? 0) && (f8 =? 0) && (c422 =? 0) && (c420 =? 0) && (mono =? 0) && (intra =? 0) && (one =? 0) && (low =? 1) then PT_MAIN_444_12 else
    if (f12 =? 1) && (f10 =? 1) && (f8 =? 1) && (c422 =? 1) && (c420 =? 1) && (mono =? 0) && (intra =? 1) && (one =? 0) then PT_MAIN_INTRA else
    if (f12 =? 1) && (f10 =? 1) && (f8 =? 0) && (c422 =? 1) && (c420 =? 1) && (mono =? 0) && (intra =? 1) && (one =? 0) then PT_MAIN_10_INTRA else
    if (f12 =? 1) && (f10 =? 0) && (f8 =? 0) && (c422 =? 1) && (c420 =? 1) && (mono =? 0) && (intra =? 1) && (one =? 0) then PT_MAIN_12_INTRA else
    if (f12 =? 1) && (f10 =? 1) && (f8 =? 0) && (c422 =? 1) && (c420 =? 0) && (mono =? 0) && (intra =? 1) && (one =? 0) then PT_MAIN_422_10_INTRA else
    if (f12 =? 1) && (f10 =? 0) && (f8 =? 0) && (c422 =? 1) && (c420 =? 0) && (mono =? 0) && (intra =? 1) && (one =? 0) then PT_MAIN_422_12_INTRA else
    if (f12 =? 1) && (f10 =? 1) && (f8 =? 1) && (c422 =? 0) && (c420 =? 0) && (mono =? 0) && (intra =? 1) && (one =? 0) then PT_MAIN_444_INTRA else
    if (f12 =? 1) && (f10 =? 1) && (f8 =? 0) && (c422 =? 0) && (c420 =? 0) && (mono =? 0) && (intra =? 1) && (one =? 0) then PT_MAIN_444_10_INTRA else
    if (f12 =? 1) && (f10 =? 0) && (f8 =? 0) && (c422 =? 0) && (c420 =? 0) && (mono =? 0) && (intra =? 1) && (one =? 0) then PT_MAIN_444_12_INTRA else
    if (f12 =? 0) && (f10 =? 0) && (f8 =? 0) && (c422 =? 0) && (c420 =? 0) && (mono =? 0) && (intra =? 1) && (one =? 0) then PT_MAIN_444_16_INTRA else
    if (f12 =? 1) && (f10 =? 1) && (f8 =? 1) && (c422 =? 0) && (c420 =? 0) && (mono =? 0) && (intra =? 1) && (one =? 1) then PT_MAIN_444_STILL_PICTURE else
    if (f12 =? 0) && (f10 =? 0) && (f8 =? 0) && (c422 =? 0) && (c420 =? 0) && (mono =? 0) && (intra =? 1) && (one =? 1) then PT_MAIN_444_16_STILL_PICTURE else
    if (f12 =? 1) && (f10 =? 1) && (f8 =? 1) && (c422 =? 1) && (c420 =? 1) && (mono =? 1) && (intra =? 1) && (one =? 1) then PT_MONOCHROME_STILL_PICTURE else
    if (f12 =? 1) && (f10 =? 1) && (f8 =? 0) && (c422 =? 1) && (c420 =? 1) && (mono =? 1) && (intra =? 1) && (one =? 1) then PT_MONOCHROME_10_STILL_PICTURE else
    if (f12 =? 1) && (f10 =? 1) && (f8 =? 1) && (c422 =? 1) && (c420 =? 1) && (mono =? 0) && (intra =? 1) && (one =? 1) then PT_MAIN_STILL_PICTURE else
    if (f12 =? 1) && (f10 =? 1) && (f8 =? 0) && (c422 =? 1) && (c420 =? 1) && (mono =? 0) && (intra =? 1) && (one =? 1) then PT_MAIN_10_STILL_PICTURE else
    if (f12 =? 1) && (f10 =? 1) && (f8 =? 0) && (c422 =? 0) && (c420 =? 0) && (mono =? 0) && (intra =? 1) && (one =? 1) then PT_MAIN_444_10_STILL_PICTURE else
    PT_FREXT
  else
  if profile_idc s =? 5 then
    if (f14 =? 1) && (f12 =? 1) && (f10 =? 1) && (f8 =? 1) && (c422 =? 0) && (c420 =? 0) && (mono =? 0) && (intra =? 0) && (one =? 0) && (low =? 1) then PT_HIGH_THROUGHPUT_444 else
    if (f14 =? 1) && (f12 =? 1) && (f10 =? 1) && (f8 =? 0) && (c422 =? 0) && (c420 =? 0) && (mono =? 0) && (intra =? 0) && (one =? 0) && (low =? 1) then PT_HIGH_THROUGHPUT_444_10 else
    if (f14 =? 1) && (f12 =? 0) && (f10 =? 0) && (f8 =? 0) && (c422 =? 0) && (c420 =? 0) && (mono =? 0) && (intra =? 0) && (one =? 0) && (low =? 1) then PT_HIGH_THROUGHPUT_444_14 else
    if (f14 =? 0) && (f12 =? 0) && (f10 =? 0) && (f8 =? 0) && (c422 =? 0) && (c420 =? 0) && (mono =? 0) && (intra =? 1) && (one =? 0) then PT_HIGH_THROUGHPUT_444_16_INTRA else
    PT_HIGH_THROUGHPUT
  else
  if profile_idc s =? 6 then
    PT_MULTIVIEW_MAIN
  else
  if profile_idc s =? 7 then
    if (f12 =? 1) && (f10 =? 1) && (f8 =? 1) && (c422 =? 1) && (c420 =? 1) && (mono =? 0) && (intra =? 0) && (one =? 0) && (low =? 1) then PT_SCALABLE_MAIN else
    if (f12 =? 1) && (f10 =? 1) && (f8 =? 0) && (c422 =? 1) && (c420 =? 1) && (mono =? 0) && (intra =? 0) && (one =? 0) && (low =? 1) then PT_SCALABLE_MAIN_10 else
    PT_SCALABLE
  else
  if profile_idc s =? 8 then
    PT__3D_MAIN
  else
  if profile_idc s =? 9 then
    if (f14 =? 1) && (f12 =? 1) && (f10 =? 1) && (f8 =? 1) && (c422 =? 1) && (c420 =? 1) && (mono =? 0) && (intra =? 0) && (one =? 0) && (low =? 1) then PT_SCREEN_EXTENDED_MAIN else
    if (f14 =? 1) && (f12 =? 1) && (f10 =? 1) && (f8 =? 0) && (c422 =? 1) && (c420 =? 1) && (mono =? 0) && (intra =? 0) && (one =? 0) && (low =? 1) then PT_SCREEN_EXTENDED_MAIN_10 else
    if (f14 =? 1) && (f12 =? 1) && (f10 =? 1) && (f8 =? 1) && (c422 =? 0) && (c420 =? 0) && (mono =? 0) && (intra =? 0) && (one =? 0) && (low =? 1) then PT_SCREEN_EXTENDED_MAIN_444 else
    if (f14 =? 1) && (f12 =? 1) && (f10 =? 1) && (f8 =? 0) && (c422 =? 0) && (c420 =? 0) && (mono =? 0) && (intra =? 0) && (one =? 0) && (low =? 1) then PT_SCREEN_EXTENDED_MAIN_444_10 else
    PT_SCREEN_EXTENDED
  else
  if profile_idc s =? 10 then
    PT_MULTILAYER
  else
  if profile_idc s =? 11 then
    if (f14 =? 1) && (f12 =? 1) && (f10 =? 1) && (f8 =? 1) && (c422 =? 0) && (c420 =? 0) && (mono =? 0) && (intra =? 0) && (one =? 0) && (low =? 1) then PT_SCREEN_EXTENDED_HIGH_THROUGHPUT_444 else
    if (f14 =? 1) && (f12 =? 1) && (f10 =? 1) && (f8 =? 0) && (c422 =? 0) && (c420 =? 0) && (mono =? 0) && (intra =? 0) && (one =? 0) && (low =? 1) then PT_SCREEN_EXTENDED_HIGH_THROUGHPUT_444_10 else
    if (f14 =? 1) && (f12 =? 0) && (f10 =? 0) && (f8 =? 0) && (c422 =? 0) && (c420 =? 0) && (mono =? 0) && (intra =? 0) && (one =? 0) && (low =? 1) then PT_SCREEN_EXTENDED_HIGH_THROUGHPUT_444_14 else
    PT_SCREEN_EXTENDED_HIGH_THROUGHPUT
  else
  if profile_idc s =? 12 then
    PT_MULTIVIEW_EXTENDED
  else
  if profile_idc s =? 13 then
    PT_MULTIVIEW_EXTENDED_10
  else
  PT_UNSPECIFIED.
