(** Annex A.3 / G.11 / H.11 / I.11: the profile an profile_idc and its constraint flags stand for, as tables
    over (bit depth, chroma format, intra-only, still picture, low bit rate flag required). *)
From Coq Require Import ZArith List Bool.
From Verif Require Import MBase MSyntaxA MProfile.
Import ListNotations.
Open Scope Z_scope.

(** The bit depth limit expressed by the max_{14,12,10,8}bit flags: the flags are nested (a smaller limit implies
    the larger ones); other combinations mean nothing. *)
Definition depth_limit (with14 : bool) (s : profile_info) : option Z :=
  match with14, max_14bit_constraint_flag s, max_12bit_constraint_flag s, max_10bit_constraint_flag s, max_8bit_constraint_flag s with
  | false, _, 1, 1, 1 | true, 1, 1, 1, 1 => Some 8
  | false, _, 1, 1, 0 | true, 1, 1, 1, 0 => Some 10
  | false, _, 1, 0, 0 | true, 1, 1, 0, 0 => Some 12
  | true, 1, 0, 0, 0 => Some 14
  | false, _, 0, 0, 0 | true, 0, 0, 0, 0 => Some 16
  | _, _, _, _, _ => None
  end.
(** The chroma format limit: 0 monochrome, 1 4:2:0, 2 4:2:2, 3 4:4:4 (chroma_format_idc). *)
Definition chroma_limit (s : profile_info) : option Z :=
  match max_422chroma_constraint_flag s, max_420chroma_constraint_flag s, max_monochrome_constraint_flag s with
  | 1, 1, 1 => Some 0
  | 1, 1, 0 => Some 1
  | 1, 0, 0 => Some 2
  | 0, 0, 0 => Some 3
  | _, _, _ => None
  end.

(** (depth, chroma_format_idc, intra_constraint_flag, one_picture_only_constraint_flag) -> profile; non-intra rows
    also require lower_bit_rate_constraint_flag = 1. *)
Definition row : Type := (Z * Z * Z * Z * Z)%type.
(** Table A.2 (format range extensions) and, last five, the combinations without a named profile the library names *)
Definition frext_rows : list row :=
  [ (8, 0, 0, 0, PT_MONOCHROME); (10, 0, 0, 0, PT_MONOCHROME_10); (12, 0, 0, 0, PT_MONOCHROME_12); (16, 0, 0, 0, PT_MONOCHROME_16);
    (12, 1, 0, 0, PT_MAIN_12); (10, 2, 0, 0, PT_MAIN_422_10); (12, 2, 0, 0, PT_MAIN_422_12);
    (8, 3, 0, 0, PT_MAIN_444); (10, 3, 0, 0, PT_MAIN_444_10); (12, 3, 0, 0, PT_MAIN_444_12);
    (8, 1, 1, 0, PT_MAIN_INTRA); (10, 1, 1, 0, PT_MAIN_10_INTRA); (12, 1, 1, 0, PT_MAIN_12_INTRA);
    (10, 2, 1, 0, PT_MAIN_422_10_INTRA); (12, 2, 1, 0, PT_MAIN_422_12_INTRA);
    (8, 3, 1, 0, PT_MAIN_444_INTRA); (10, 3, 1, 0, PT_MAIN_444_10_INTRA); (12, 3, 1, 0, PT_MAIN_444_12_INTRA); (16, 3, 1, 0, PT_MAIN_444_16_INTRA);
    (8, 3, 1, 1, PT_MAIN_444_STILL_PICTURE); (16, 3, 1, 1, PT_MAIN_444_16_STILL_PICTURE);
    (8, 0, 1, 1, PT_MONOCHROME_STILL_PICTURE); (10, 0, 1, 1, PT_MONOCHROME_10_STILL_PICTURE);
    (8, 1, 1, 1, PT_MAIN_STILL_PICTURE); (10, 1, 1, 1, PT_MAIN_10_STILL_PICTURE); (10, 3, 1, 1, PT_MAIN_444_10_STILL_PICTURE) ].
(** Table A.3 (high throughput) *)
Definition high_throughput_rows : list row :=
  [ (8, 3, 0, 0, PT_HIGH_THROUGHPUT_444); (10, 3, 0, 0, PT_HIGH_THROUGHPUT_444_10); (14, 3, 0, 0, PT_HIGH_THROUGHPUT_444_14);
    (16, 3, 1, 0, PT_HIGH_THROUGHPUT_444_16_INTRA) ].
(** H.11.1.1 (scalable) *)
Definition scalable_rows : list row := [ (8, 1, 0, 0, PT_SCALABLE_MAIN); (10, 1, 0, 0, PT_SCALABLE_MAIN_10) ].
(** Table A.5 (screen content coding extensions) *)
Definition screen_rows : list row :=
  [ (8, 1, 0, 0, PT_SCREEN_EXTENDED_MAIN); (10, 1, 0, 0, PT_SCREEN_EXTENDED_MAIN_10);
    (8, 3, 0, 0, PT_SCREEN_EXTENDED_MAIN_444); (10, 3, 0, 0, PT_SCREEN_EXTENDED_MAIN_444_10) ].
(** Table A.7 (high throughput screen content coding extensions) *)
Definition screen_ht_rows : list row :=
  [ (8, 3, 0, 0, PT_SCREEN_EXTENDED_HIGH_THROUGHPUT_444); (10, 3, 0, 0, PT_SCREEN_EXTENDED_HIGH_THROUGHPUT_444_10);
    (14, 3, 0, 0, PT_SCREEN_EXTENDED_HIGH_THROUGHPUT_444_14) ].

Definition in_table (with14 : bool) (rows : list row) (family : Z) (s : profile_info) : Z :=
  match depth_limit with14 s, chroma_limit s with
  | Some d, Some c =>
    match find (fun r => match r with (d', c', i', o', _) =>
                           (d =? d') && (c =? c') && (intra_constraint_flag s =? i') && (one_picture_only_constraint_flag s =? o') &&
                           ((i' =? 1) || (lower_bit_rate_constraint_flag s =? 1)) end) rows with
    | Some (_, name) => name
    | None => family
    end
  | _, _ => family
  end.

Definition profile_spec (s : profile_info) : Z :=
  match profile_space s, profile_idc s with
  | 0, 1 => PT_MAIN
  | 0, 2 => if one_picture_only_constraint_flag s =? 1 then PT_MAIN_10_STILL_PICTURE else PT_MAIN_10
  | 0, 3 => PT_MAIN_STILL_PICTURE
  | 0, 4 => in_table false frext_rows PT_FREXT s
  | 0, 5 => in_table true high_throughput_rows PT_HIGH_THROUGHPUT s
  | 0, 6 => PT_MULTIVIEW_MAIN
  | 0, 7 => in_table false scalable_rows PT_SCALABLE s
  | 0, 8 => PT__3D_MAIN
  | 0, 9 => in_table true screen_rows PT_SCREEN_EXTENDED s
  | 0, 10 => PT_MULTILAYER
  | 0, 11 => in_table true screen_ht_rows PT_SCREEN_EXTENDED_HIGH_THROUGHPUT s
  | 0, 12 => PT_MULTIVIEW_EXTENDED
  | 0, 13 => PT_MULTIVIEW_EXTENDED_10
  | _, _ => PT_UNSPECIFIED
  end.
