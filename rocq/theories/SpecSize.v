(** How much a parsed structure holds: the number of elements of all its vectors, nested ones included (C50). *)
From Coq Require Import ZArith List Bool.
From Verif Require Import MBase MBitBuffer Syntax MCommon MSyntaxA MSyntaxB MSps MPps MSlice MSei MNal MRtp.
Import ListNotations.
Open Scope Z_scope.

Definition len {A} (l : list A) : Z := Z.of_nat (length l).
(** The sum of [f x] over the elements of a list. *)
Definition total {A} (f : A -> Z) (l : list A) : Z := fold_right (fun x n => f x + n) 0 l.
(** A vector whose elements hold [f x] elements themselves. *)
Definition vsize {A} (f : A -> Z) (l : list A) : Z := total (fun x => 1 + f x) l.
Definition osize {A} (f : A -> Z) (o : option A) : Z := match o with Some x => f x | None => 0 end.

Definition profile_info_size (p : profile_info) : Z := len (profile_compatibility_flag p).
Definition ptl_size (p : ptl) : Z :=
  osize profile_info_size (ptl_general p) + len (ptl_sub_layer_flags p) + len (ptl_reserved_zero_2bits p) +
  vsize (fun x => osize profile_info_size (fst x)) (ptl_sub_layers p).
Definition hrd_sub_size (h : hrd_sub) : Z := osize len (sub_layer_nal_hrd h) + osize len (sub_layer_vcl_hrd h).
Definition hrd_size (h : hrd) : Z := vsize hrd_sub_size (hrd_sub_layers h).
Definition vui_size (v : vui) : Z := osize hrd_size (vui_hrd_parameters v).
Definition vps_size (v : vps_body) : Z :=
  ptl_size (vps_profile_tier_level v) + len (vps_ordering v) + vsize len (layer_id_included_flag v) + vsize (fun e => hrd_size (vps_hrd_parameters e)) (vps_hrds v).
Definition sps_scc_size (e : sps_scc_ext) : Z := vsize len (sps_palette_predictor_initializers e).
Definition scaling_list_data_size (l : list (list scaling_list)) : Z := vsize (vsize (fun s => len (sl_coefs s))) l.
Definition rps_size (r : rps) : Z := len (rps_flags r) + len (rps_s0 r) + len (rps_s1 r).
Definition sps_size (s : sps) : Z :=
  ptl_size (sps_profile_tier_level s) + len (sps_ordering s) + osize scaling_list_data_size (sps_scaling_list_data s) +
  vsize rps_size (sps_st_ref_pic_set s) + len (sps_lt s) + osize vui_size (sps_vui_parameters s) + osize sps_scc_size (sps_scc_extension s).
Definition pps_ml_size (e : pps_ml_ext) : Z := len (ref_locs e).
Definition pps_scc_size (e : pps_scc_ext) : Z := vsize len (pps_palette_predictor_initializers e).
Definition pps_size (p : pps) : Z :=
  len (column_width_minus1 p) + len (row_height_minus1 p) + osize scaling_list_data_size (pps_scaling_list_data p) +
  osize pps_ml_size (pps_multilayer_extension p) + osize pps_scc_size (pps_scc_extension p).
Definition pwt_size (t : pwt) : Z := len (luma_weight_l0_flag t) + len (chroma_weight_l0_flag t) + len (pwt_luma t) + len (pwt_chroma t).
Definition slice_size (h : slice_header) : Z :=
  len (slice_reserved_flag h) + osize rps_size (sh_st_ref_pic_set h) + len (sh_lt h) + osize pwt_size (sh_pred_weight_table h) +
  len (entry_point_offset_minus1 h) + len (slice_segment_header_extension_data_byte h).
Definition sei_payload_size (p : sei_payload) : Z :=
  match p with
  | P_t35 s => len (t35_payload s)
  | P_unregistered s => len (ur_payload s)
  | P_mastering s => len (display_primaries s)
  | P_knee s => len (knee_points s)
  | P_remap s => vsize (fun x => len (snd x)) (pre_lut s) + vsize len (colour_remap_coeffs s) + vsize (fun x => len (snd x)) (post_lut s)
  | P_ccv s => len (ccv_primaries s)
  | P_unknown l => len l
  | P_alpha _ | P_light _ | P_alt _ | P_ambient _ => 0
  end.
Definition sei_size (m : sei_message) : Z := osize sei_payload_size (sei_payload_state m).
(** What the payload of a NAL unit holds. *)
Definition payload_elements (p : nal_payload) : Z :=
  osize (fun x => vps_size (fst x)) (np_vps p) + osize (fun x => sps_size (fst x)) (np_sps p) + osize (fun x => pps_size (fst x)) (np_pps p) +
  osize slice_size (np_slice p) + osize sei_size (np_sei p).
Definition unit_elements (u : nal_unit) : Z := payload_elements (nu_payload u).
Definition bitstream_elements (s : bitstream) : Z := vsize unit_elements (bs_units s).
Definition box_elements (h : hvcc) : Z :=
  len (general_profile_compatibility_flags (hv_header h)) + vsize (fun a => vsize (fun x => osize unit_elements (snd x)) (nalus a)) (hv_arrays h).
Definition rtp_elements (r : rtp) : Z :=
  osize (fun s => payload_elements (rs_payload s)) (r_single r) + osize (fun a => vsize (fun u => payload_elements (au_payload u)) (ra_units a)) (r_ap r) +
  osize (fun f => osize payload_elements (rf_payload f)) (r_fu r).
