#!/usr/bin/env python3
"""Translate the unit tests of /repo/test into Rocq: rocq/theories/UnitTests.v runs the model on the same bytes and compares the same fields.

usage: mktests.py [/repo/test] > rocq/theories/UnitTests.v

A field of the C++ object is translated to the projection of the model's record of the same name; the table FIELDS lists the others.
Checks that are not translated are listed at the end of the output."""
import re, sys, glob, os
TEST = sys.argv[1] if len(sys.argv) > 1 else '/repo/test'
TH = os.path.join(os.path.dirname(os.path.abspath(__file__)), '..', 'rocq', 'theories')

# records of the model: constructor and fields with their types
records = {}
for f in glob.glob(TH + '/M*.v'):
    for m in re.finditer(r'^Record (\w+) : Type := (\w+) \{(.*?)\}\.', open(f).read(), re.S | re.M):
        body = re.sub(r'\(\*.*?\*\)', '', m.group(3), flags=re.S)
        records[m.group(1)] = (m.group(2), [tuple(x.strip() for x in p.split(':', 1)) for p in body.split(';') if p.strip()])

# (type, C++ field) -> (expression with X for the object, type).  'opt T': a pointer that may be null.  Default: the projection of the same name.
FIELDS = {
    ('vps', 'profile_tier_level'): ('vps_profile_tier_level (fst X)', 'ptl'),
    ('vps', 'vps_max_dec_pic_buffering_minus1'): ('map max_dec_pic_buffering_minus1 (vps_ordering (fst X))', 'list Z'),
    ('vps', 'vps_max_num_reorder_pics'): ('map max_num_reorder_pics (vps_ordering (fst X))', 'list Z'),
    ('vps', 'vps_max_latency_increase_plus1'): ('map max_latency_increase_plus1 (vps_ordering (fst X))', 'list Z'),
    ('vps', 'layer_id_included_flag'): ('layer_id_included_flag (fst X)', 'list (list Z)'),
    ('vps', 'hrd_layer_set_idx'): ('map hrd_layer_set_idx (vps_hrds (fst X))', 'list Z'),
    ('vps', 'cprms_present_flag'): ('map cprms_present_flag (vps_hrds (fst X))', 'list Z'),
    ('vps', 'vps_extension_data_flag'): ('snd X', 'Z'),
    ('ptl', 'general'): ('ptl_general X', 'opt profile_info'), ('ptl', 'general_level_idc'): ('ptl_general_level_idc X', 'Z'),
    ('ptl', 'sub_layer_profile_present_flag'): ('map fst (ptl_sub_layer_flags X)', 'list Z'),
    ('ptl', 'sub_layer_level_present_flag'): ('map snd (ptl_sub_layer_flags X)', 'list Z'),
    ('ptl', 'reserved_zero_2bits'): ('ptl_reserved_zero_2bits X', 'list Z'), ('ptl', 'sub_layer'): ('map snd (ptl_sub_layers X)', 'list Z'),
    ('sps', 'profile_tier_level'): ('sps_profile_tier_level (fst X)', 'ptl'),
    ('sps', 'sps_max_dec_pic_buffering_minus1'): ('map max_dec_pic_buffering_minus1 (sps_ordering (fst X))', 'list Z'),
    ('sps', 'sps_max_num_reorder_pics'): ('map max_num_reorder_pics (sps_ordering (fst X))', 'list Z'),
    ('sps', 'sps_max_latency_increase_plus1'): ('map max_latency_increase_plus1 (sps_ordering (fst X))', 'list Z'),
    ('sps', 'st_ref_pic_set'): ('sps_st_ref_pic_set (fst X)', 'list rps'),
    ('sps', 'vui_parameters'): ('sps_vui_parameters (fst X)', 'opt vui'),
    ('sps', 'getPicSizeInCtbsY()'): ('getPicSizeInCtbsY (fst X)', 'Z'),
    ('rps', 'used_by_curr_pic_flag'): ('map fst (rps_flags X)', 'list Z'), ('rps', 'use_delta_flag'): ('map snd (rps_flags X)', 'list Z'),
    ('rps', 'delta_poc_s0_minus1'): ('map fst (rps_s0 X)', 'list Z'), ('rps', 'used_by_curr_pic_s0_flag'): ('map snd (rps_s0 X)', 'list Z'),
    ('rps', 'delta_poc_s1_minus1'): ('map fst (rps_s1 X)', 'list Z'), ('rps', 'used_by_curr_pic_s1_flag'): ('map snd (rps_s1 X)', 'list Z'),
    ('vui', 'hrd_parameters'): ('vui_hrd_parameters X', 'opt hrd'),
    ('hrd', 'sub_layer_hrd_parameters_vector'):
        ('flat_map (fun s => match sub_layer_nal_hrd s with Some l => [l] | None => [] end ++ match sub_layer_vcl_hrd s with Some l => [l] | None => [] end) (hrd_sub_layers X)', 'list cpbs'),
    ('scaling_list_data', 'scaling_list_pred_mode_flag'): ('map (map sl_pred_mode_flag) (by_matrix X)', 'list (list Z)'),
    ('scaling_list_data', 'scaling_list_pred_matrix_id_delta'): ('map (map sl_pred_matrix_id_delta) (by_matrix X)', 'list (list Z)'),
    ('scaling_list_data', 'scaling_list_dc_coef_minus8'): ('dc_vectors X', 'list (list Z)'),
    ('scaling_list_data', 'ScalingList'): ('map (map sl_coefs) (by_matrix X)', 'list (list (list Z))'),
    ('sps_3d_ext', 'iv_di_mc_enabled_flag'): ('[iv_di_mc_enabled_flag0 X; iv_di_mc_enabled_flag1 X]', 'list Z'),
    ('sps_3d_ext', 'iv_mv_scal_enabled_flag'): ('[iv_mv_scal_enabled_flag0 X; iv_mv_scal_enabled_flag1 X]', 'list Z'),
    ('sps_scc_ext', 'sps_palette_predictor_initializers'): ('sps_palette_predictor_initializers X', 'list (list Z)'),
    ('pps_scc_ext', 'pps_palette_predictor_initializers'): ('pps_palette_predictor_initializers X', 'list (list Z)'),
    ('pps_scc_ext', 'pps_num_palette_predictor_initializers'): ('pps_num_palette_predictor_initializer X', 'Z'),
    ('sps_ml_ext', 'inter_view_mv_vert_constraint_flag'): ('X', 'Z'),
    ('aud', 'pic_type'): ('X', 'Z'), ('sei_alt', 'preferred_transfer_characteristics'): ('X', 'Z'),
    ('nal_unit', 'nal_unit_header'): ('nu_header X', 'nal_header'), ('nal_unit', 'nal_unit_payload'): ('nu_payload X', 'payload'),
    ('nal_unit', 'offset'): ('nu_offset X', 'Z'), ('nal_unit', 'length'): ('nu_length X', 'Z'), ('nal_unit', 'parsed_length'): ('nu_parsed_length X', 'Z'),
    ('bitstream', 'nal_units'): ('bs_units X', 'list nal_unit'),
    ('payload', 'vps'): ('np_vps X', 'opt vps'), ('payload', 'sps'): ('np_sps X', 'opt sps'), ('payload', 'pps'): ('np_pps X', 'opt pps'),
    ('payload', 'slice_segment_layer'): ('np_slice X', 'opt slice_layer'),
    ('slice_layer', 'slice_segment_header'): ('X', 'slice_header'), ('slice_header', 'nal_unit_type'): (None, 'skip'),
    ('rtp_single', 'nal_unit_header'): ('rs_header X', 'nal_header'), ('rtp_single', 'nal_unit_payload'): ('rs_payload X', 'payload'),
    ('rtp_ap', 'header'): ('ra_header X', 'nal_header'), ('rtp_ap', 'nal_unit_sizes'): ('map au_size (ra_units X)', 'list Z'),
    ('rtp_ap', 'nal_unit_headers'): ('map au_header (ra_units X)', 'list nal_header'), ('rtp_ap', 'nal_unit_payloads'): ('map au_payload (ra_units X)', 'list payload'),
    ('rtp_fu', 'header'): ('rf_header X', 'nal_header'), ('rtp_fu', 'nal_unit_payload'): ('rf_payload X', 'opt payload'),
    ('rtp', 'nal_unit_header'): ('rtp_header X', 'nal_header'), ('rtp', 'rtp_single'): ('r_single X', 'opt rtp_single'),
    ('rtp', 'rtp_ap'): ('r_ap X', 'opt rtp_ap'), ('rtp', 'rtp_fu'): ('r_fu X', 'opt rtp_fu'),
    ('hvcc', 'array_completeness'): ('map array_completeness (hv_arrays X)', 'list Z'), ('hvcc', 'NAL_unit_type'): ('map NAL_unit_type (hv_arrays X)', 'list Z'),
    ('hvcc', 'numNalus'): ('map (fun a => Z.of_nat (length (nalus a))) (hv_arrays X)', 'list Z'),
    ('hvcc', 'nalUnitLength'): ('map (fun a => map fst (nalus a)) (hv_arrays X)', 'list (list Z)'),
    ('hvcc', 'nalUnit'): ('map (fun a => map snd (nalus a)) (hv_arrays X)', 'list (list (opt nal_unit))'),
    ('hvcc', 'min_spatial_segmentation_idc'): ('MRtp.min_spatial_segmentation_idc (hv_header X)', 'Z'),
    ('hvcc', 'general_profile_compatibility_flags'): ('general_profile_compatibility_flags (hv_header X)', 'list Z'),
    ('hvcc', 'chroma_format_idc'): ('hvcc_chroma_format_idc (hv_header X)', 'Z'), ('hvcc', 'bit_depth_luma_minus8'): ('hvcc_bit_depth_luma_minus8 (hv_header X)', 'Z'),
    ('hvcc', 'bit_depth_chroma_minus8'): ('hvcc_bit_depth_chroma_minus8 (hv_header X)', 'Z'),
    ('sei_mastering', 'display_primaries_x'): ('map fst (display_primaries X)', 'list Z'), ('sei_mastering', 'display_primaries_y'): ('map snd (display_primaries X)', 'list Z'),
    ('sei_ccv', 'ccv_primaries_x'): ('map fst (ccv_primaries X)', 'list Z'), ('sei_ccv', 'ccv_primaries_y'): ('map snd (ccv_primaries X)', 'list Z'),
    ('sei_message', 'payload_size'): ('MSei.payload_size X', 'Z'),
    ('vui', 'min_spatial_segmentation_idc'): ('MSyntaxA.min_spatial_segmentation_idc X', 'Z'),
    ('state', 'vps'): ('st_vps X', 'map vps'), ('state', 'sps'): ('st_sps X', 'map sps'), ('state', 'pps'): ('st_pps X', 'map pps'),
}
for n in ('configurationVersion', 'reserved1', 'reserved2', 'reserved3', 'reserved4', 'reserved5', 'reserved6'): FIELDS[('hvcc', n)] = (None, 'skip')
for n in ('bit_rate_value_minus1', 'cpb_size_value_minus1', 'cpb_size_du_value_minus1', 'bit_rate_du_value_minus1', 'cbr_flag'): FIELDS[('cpbs', n)] = ('map %s X' % n, 'list Z')
for n in ('fixed_pic_rate_general_flag', 'fixed_pic_rate_within_cvs_flag', 'elemental_duration_in_tc_minus1', 'low_delay_hrd_flag', 'cpb_cnt_minus1'):
    FIELDS[('hrd', n)] = ('map %s (hrd_sub_layers X)' % n, 'list Z')
PAIRED = {'vps': 'vps_body', 'sps': 'sps', 'pps': 'pps'}
# parser -> (call with D for the data, S for the state, arguments A0 A1 ..., shape of the result, type)
CALLS = {
    'ParseAud': ('on_data ParseAud D', 'data', 'aud'), 'ParseVps': ('on_data ParseVps D', 'data', 'vps'), 'ParseSps': ('on_data ParseSps D', 'data', 'sps'), 'ParsePps': ('on_data ParsePps D', 'data', 'pps'),
    'ParseBitstream': ('ParseBitstream O D S', 'bits', 'bitstream'), 'ParseNalUnit': ('ParseNalUnit O D S', 'state', 'nal_unit'),
    'ParseConfigurationBox': ('ParseConfigurationBox O D S', 'state', 'hvcc'), 'ParseHrdParameters': ('on_data (ParseHrdParameters A0 A1) D', 'data', 'hrd'),
    'ParsePpsMultilayerExtension': ('on_data ParsePpsMultilayerExtension D', 'data', 'pps_ml_ext'), 'ParsePpsSccExtension': ('on_data ParsePpsSccExtension D', 'data', 'pps_scc_ext'),
    'ParsePredWeightTable': ('on_data (ParsePredWeightTable A0 A1) D', 'data', 'pwt'), 'ParseProfileTierLevel': ('on_data (ParseProfileTierLevel A0 A1) D', 'data', 'ptl'),
    'ParseRtpAp': ('ParseRtpAp D S', 'state', 'rtp_ap'), 'ParseRtpFu': ('ParseRtpFu D S', 'state', 'rtp_fu'), 'ParseRtp': ('ParseRtp D S', 'state', 'rtp'),
    'ParseRtpSingle': ('ParseRtpSingle D S', 'state', 'rtp_single'), 'ParseScalingListData': ('on_data ParseScalingListData D', 'data', 'scaling_list_data'),
    'ParseSei': ('on_data ParseSei D', 'data', 'sei_message'), 'ParseSliceSegmentLayer': ('on_data (ParseSliceSegmentHeader A0 S) D', 'data', 'slice_layer'),
    'ParseSps3dExtension': ('on_data ParseSps3dExtension D', 'data', 'sps_3d_ext'), 'ParseSpsMultilayerExtension': ('on_data ParseSpsMultilayerExtension D', 'data', 'sps_ml_ext'),
    'ParseSpsRangeExtension': ('on_data ParseSpsRangeExtension D', 'data', 'sps_range_ext'), 'ParseSpsSccExtension': ('on_data (ParseSpsSccExtension A0 A1 A2) D', 'data', 'sps_scc_ext'),
    'ParseStRefPicSet': ('on_data (ParseStRefPicSet A0 A1 [] A3) D', 'data', 'rps'), 'ParseSubLayerHrdParameters': ('on_data (ParseSubLayerHrdParameters A1 A2) D', 'data', 'cpbs'),
    'ParseVuiParameters': ('on_data (ParseVuiParameters A0) D', 'data', 'vui'), 'GetSliceQpY': ('GetSliceQpY D S', 'bits', 'list Z'),
    'GetNalUnitType': ('GetNalUnitType D', 'data', 'Z'),
}
SEI = {'UserDataRegisteredItuTT35': ('P_t35', 'sei_t35'), 'UserDataUnregistered': ('P_unregistered', 'sei_unregistered'), 'AlphaChannelInfo': ('P_alpha', 'sei_alpha'),
       'MasteringDisplayColourVolume': ('P_mastering', 'sei_mastering'), 'ContentLightLevelInfo': ('P_light', 'sei_light'), 'KneeFunctionInfo': ('P_knee', 'sei_knee'),
       'ColourRemappingInfo': ('P_remap', 'sei_remap'), 'ContentColourVolume': ('P_ccv', 'sei_ccv'), 'AlternativeTransferCharacteristics': ('P_alt', 'sei_alt'),
       'AmbientViewingEnvironment': ('P_ambient', 'sei_ambient')}
NUT = dict(TRAIL_N=0, TRAIL_R=1, BLA_W_LP=16, IDR_W_RADL=19, VPS_NUT=32, SPS_NUT=33, PPS_NUT=34, RSV_NVCL43=43, RSV_NVCL47=47, AP=48, FU=49, UNSPEC50=50, UNSPEC63=63)
SEIT = dict(user_data_registered_itu_t_t35=4, user_data_unregistered=5, mastering_display_colour_volume=137, content_light_level_info=144, knee_function_info=141,
            colour_remapping_info=142, content_colour_volume=149, alternative_transfer_characteristics=147, ambient_viewing_environment=148, alpha_channel_info=165)

def split_args(s):
    out, d, cur = [], 0, ''
    for c in s:
        if c in '([{': d += 1
        if c in ')]}': d -= 1
        if c == ',' and d == 0: out.append(cur.strip()); cur = ''
        else: cur += c
    if cur.strip(): out.append(cur.strip())
    return out
def zlist(vals): return '[' + '; '.join(vals) + ']'

class T:
    def __init__(self, glob): self.env = dict(glob); self.n = 0; self.skipped = []
    def fresh(self, p='x'): self.n += 1; return '%s%d' % (p, self.n)
    def num(self, s):
        s = s.strip()
        m = re.fullmatch(r'static_cast<int32_t>\((0x[0-9a-f]+)\)', s)
        if m: v = int(m.group(1), 16); return str(v - 2**32 if v >= 2**31 else v)
        m = re.fullmatch(r'(?:h265nal::)?(?:NalUnitType|SeiType)::(\w+)', s)
        if m: return str(NUT[m.group(1)] if m.group(1) in NUT else SEIT[m.group(1)])
        if s in NUT: return str(NUT[s])
        if re.fullmatch(r'-?(0x[0-9a-fA-F]+|0b[01]+|\d+)', s): return '(%d)' % int(s, 0) if s.startswith('-') else str(int(s, 0))
        if s == 'true' or s == 'false': return s
        if s in self.env and self.env[s][1] == 'num': return str(self.env[s][0])
        return None
    # path -> (wrappers, expression, type)
    def path(self, s):
        toks = re.findall(r'->\w+(?:\(\))?|\.front\(\)|\.size\(\)|\.\w+|\[[^\]]*\]', s); head = re.match(r'\*?\w+', s).group(0)
        assert head.lstrip('*') + ''.join(toks) == s.lstrip('*'), s
        e, t = self.env[head.lstrip('*')]; w = []
        def deref(e, t):
            while t.startswith('opt '):
                v = self.fresh(); w.append((e, v)); e, t = v, t[4:]
            return e, t
        for k in toks:
            e, t = deref(e, t)
            if k == '.size()':
                assert t.startswith('list ') , (s, t); return w, 'Z.of_nat (length (%s))' % e, 'Z'
            if k == '.front()': k = '[0]'
            if k.startswith('['):
                i = k[1:-1]
                if t.startswith('map '): n = self.num(i); n = n if n is not None else self.env[i][0]; e, t = '%s %s' % (e, n), 'opt ' + t[4:]
                else:
                    n = self.num(i); assert n is not None and t.startswith('list '), (s, t)
                    inner = t[5:]; inner = inner[1:-1] if inner.startswith('(') else inner
                    e, t = 'nth_error (%s) %s' % (e, n), 'opt ' + inner
                continue
            f = k[2:] if k.startswith('->') else k[1:]
            if (t, f) in FIELDS:
                x, t2 = FIELDS[(t, f)]
                if t2 == 'skip': return w, None, 'skip'
                e, t = x.replace('X', e if re.fullmatch(r'\w+', e) else '(%s)' % e), t2
            elif t == 'hvcc': e, t = '%s (hv_header %s)' % (f, e), 'Z'
            else:
                rec = records[PAIRED.get(t, t)]; ty = dict(rec[1]).get(f)
                assert ty is not None, ('no field', t, f, s)
                e = '%s %s' % (f, ('(fst %s)' if t in PAIRED else '(%s)') % e); t = ty.replace('option', 'opt')
        if t.startswith('opt ') and s.startswith('*'): e, t = deref(e, t)
        return w, e, t
    def check(self, w, c):
        for e, v in reversed(w): c = 'match %s with Some %s => %s | None => false end' % (e, v, c)
        return c
    def expect(self, kind, args):
        if kind in ('TRUE', 'FALSE'):
            a = args[0]
            m = re.fullmatch(r'(Is\w+)\((\w+)\)', a)
            if m: c = '%s %d' % (m.group(1), NUT[m.group(2)]); return c if kind == 'TRUE' else 'negb (%s)' % c
            m = re.fullmatch(r'(.*\S) (!=|==) nullptr', a)
            if m:
                if m.group(1) in self.env and self.env[m.group(1)][1] == 'null': return None if m.group(2) == '==' else 'false'
                w, e, t = self.path(m.group(1))
                if t.startswith('opt '): return self.check(w, 'match %s with Some _ => %s | None => %s end' % (e, *(('true', 'false') if m.group(2) == '!=' else ('false', 'true'))))
                return None if m.group(2) == '!=' and not w else self.check(w, 'true')
            m = re.fullmatch(r'bitstream_parser_state\.(\w+)\.find\((\d+)\) != bitstream_parser_state\.\w+\.end\(\)', a)
            if m: return 'match st_%s %s %s with Some _ => true | None => false end' % (m.group(1), self.env['bitstream_parser_state'][0], m.group(2))
        if kind == 'EQ':
            a, b = args
            m = re.fullmatch(r'bitstream_parser_state\.(\w+)\.size\(\)', b)
            if m: return 'only_key_0 (st_%s %s)' % (m.group(1), self.env['bitstream_parser_state'][0]) if a == '1' else None
            va, vb = self.num(a), self.num(b); p, v = (b, va) if va is not None else (a, vb)
            assert v is not None, args
            w, e, t = self.path(p)
            if t == 'skip': self.skipped.append(p); return None
            while t.startswith('opt '): x = self.fresh(); w.append((e, x)); e, t = x, t[4:]
            assert t == 'Z', (args, t)
            return self.check(w, '(%s =? %s)' % (e, v))
        if kind == 'THAT':
            a, b = args; m = re.fullmatch(r'::testing::ElementsAreArray\(\{(.*)\}\)', b); vals = [self.num(x) for x in split_args(m.group(1))]
            m = re.match(r'std::vector<char>\((.*?)->checksum->', a)
            if m:
                w, e, t = self.path(m.group(1)); v = self.fresh(); 
                while t.startswith('opt '): x = self.fresh(); w.append((e, x)); e, t = x, t[4:]
                n = 0
                for x in vals: n = n * 256 + int(x)
                return self.check(w + [('nu_checksum %s' % e, v)], '(%s =? %d)' % (v, n))
            w, e, t = self.path(a)
            if t == 'skip': self.skipped.append(a); return None
            while t.startswith('opt '): x = self.fresh(); w.append((e, x)); e, t = x, t[4:]
            assert t == 'list Z', (args, t)
            return self.check(w, 'same (%s) %s' % (e, zlist(vals)))
        raise Exception((kind, args))

def default(ty):
    return '0' if ty == 'Z' else '[]' if ty.startswith('list') else 'None' if ty.startswith('option') else '(mkPTL None 0 [] [] [])' if ty == 'ptl' else '?' + ty
def mock(kind, sets):
    con, fields = records[PAIRED[kind]]
    return '(%s %s, 0)' % (con, ' '.join(sets.get(n, default(t)) for n, t in fields))

def strip(src):
    src = re.sub(r'/\*.*?\*/', '', src, flags=re.S); src = re.sub(r'#if 0.*?#endif', '', src, flags=re.S); return re.sub(r'//[^\n]*', '', src)
def statements(body):
    out, d, cur = [], 0, ''
    for c in body:
        if c in '({[': d += 1
        if c in ')}]': d -= 1
        if c == ';' and d == 0: out.append(re.sub(r'\s+', ' ', cur).strip()); cur = ''
        else: cur += c
    return [s for s in out if s]
def body_of(src, start):
    i = src.index('{', start); d = 0
    for j in range(i, len(src)):
        d += (src[j] == '{') - (src[j] == '}')
        if d == 0: return src[i + 1:j]
def buffer_of(st):
    m = re.fullmatch(r'const uint8_t (\w+)\[\] = \{(.*)\}', st)
    return (m.group(1), zlist([str(int(x, 16 if 'x' in x else 10)) for x in split_args(m.group(2))])) if m else None

def translate(name, sts, glob):
    t = T(glob); lines = []; depth = 0; mocks = {}; opts = 'default_options'; close = []
    st = None
    nulls = set(re.findall(r'EXPECT_TRUE\((\w+) == nullptr\)', '; '.join(sts)))
    for s in sts:
        b = buffer_of(s)
        if b: lines.append('let %s := %s in' % (b[0] + '_', b[1])); t.env[b[0]] = (b[0] + '_', 'data'); continue
        if re.fullmatch(r'H265BitstreamParserState bitstream_parser_state', s): t.env['bitstream_parser_state'] = ('empty_state', 'state'); continue
        if s in ('ParsingOptions parsing_options', 'NalUnitType naluType') or s.startswith('std::vector<int32_t> slice_qp_y_vector') and '=' not in s: continue
        m = re.fullmatch(r'parsing_options\.add_checksum = (true|false)', s)
        if m: opts = 'with_checksum' if m.group(1) == 'true' else 'default_options'; continue
        m = re.fullmatch(r'(?:size_t|int|uint32_t|bool) (\w+) = (\w+)|(\w+) = (0?x?[0-9a-f]+)', s)
        if m:
            n, v = (m.group(1), m.group(2)) if m.group(1) else (m.group(3), m.group(4))
            if v not in ('true', 'false'): v = int(v, 0)
            t.env[n] = (v, 'num'); continue
        m = re.fullmatch(r'(\w+) \+= (\w+)', s)
        if m: t.env[m.group(1)] = (t.env[m.group(1)][0] + (int(m.group(2)) if m.group(2).isdigit() else t.env[m.group(2)][0]), 'num'); continue
        m = re.fullmatch(r'auto (\w+) = std::make_shared<H265(\w+)Parser::\w+>\(\)', s)
        if m: mocks[m.group(1)] = (m.group(2).lower(), {}); continue
        m = re.fullmatch(r'(\w+)->(\w+) = (-?\w+)', s)
        if m and m.group(1) in mocks: mocks[m.group(1)][1][m.group(2)] = t.num(m.group(3)); continue
        if s == 'sps->sps_max_dec_pic_buffering_minus1.push_back(6)': mocks['sps'][1]['sps_ordering'] = '[mkOI 6 0 0]'; continue
        m = re.fullmatch(r'bitstream_parser_state\.(\w+)\[(\d+)\] = (\w+)', s)
        if m:
            mk, sets = mocks[m.group(3)]; new = t.fresh('st'); e = t.env['bitstream_parser_state'][0]
            lines.append('let %s := set_%s %s %s %s in' % (new, m.group(1), e, m.group(2), mock(mk, sets))); t.env['bitstream_parser_state'] = (new, 'state'); continue
        m = re.match(r'(EXPECT|ASSERT)_(EQ|TRUE|FALSE|THAT)\((.*)\)(?: << .*)?$', s)
        if m:
            c = t.expect(m.group(2), split_args(m.group(3)))
            if c: lines.append('(%s) &&' % c)
            continue
        m = re.fullmatch(r'auto ?&? ?(\w+) = dynamic_cast< ?H265Sei(\w+?)Parser:: ?H265Sei\w+State ?\* ?>\( ?sei_message->payload_state\.get\(\)\)', s)
        if m:
            con, ty = SEI[m.group(2)]; v = t.fresh(); lines.append('match sei_payload_state %s with Some (%s %s) =>' % (t.env['sei_message'][0], con, v)); close.append('| _ => false end'); t.env[m.group(1)] = (v, ty); lines.append(None); continue
        m = re.match(r'(?:(?:auto|std::vector<int32_t>) ?&? ?)?(?:(\w+) = )?H265\w+::(\w+)\((.*)\)$', s)
        if m and m.group(2) in CALLS:
            v, fn, args = m.group(1), m.group(2), split_args(m.group(3))
            call, shape, ty = CALLS[fn]
            if fn == 'GetSliceQpY' and args[0] == 'rtp':
                x = t.fresh(); lines.append('match GetSliceQpYRtp %s %s with Done (Some %s) =>' % (t.env['rtp'][0], t.env['bitstream_parser_state'][0], x)); close.append('| _ => false end'); lines.append(None); t.env[v] = (x, 'Z'); continue
            if fn == 'GetNalUnitType': v = 'naluType'; args = args[:2]
            state = 'bitstream_parser_state' in m.group(3)
            data = '[]' if args[1] == '0' else t.env[args[0].replace('.data()', '')][0]
            extra = [a for a in args[2:] if 'bitstream_parser_state' not in a and a != 'parsing_options']
            S = t.env['bitstream_parser_state'][0] if state else None
            if fn == 'ParseBitstream' and not state: call = 'ParseBitstreamNoState O D'; shape = 'nostate'
            call = call.replace('ParseBitstream O', 'ParseBitstream %s' % opts).replace('NoState O', 'NoState %s' % opts).replace('ParseNalUnit O', 'ParseNalUnit %s' % opts).replace('ParseConfigurationBox O', 'ParseConfigurationBox %s' % opts)
            call = re.sub(r'\bD\b', data, call); 
            if S: call = re.sub(r'\bS\b', S, call)
            for i, a in enumerate(extra): call = re.sub(r'\bA%d\b' % i, t.num(a) or '?', call)
            x = t.fresh(); null = v in nulls
            if shape == 'data': pat = 'Done None' if null else 'Done (Some %s)' % x
            elif shape == 'state': ns = t.fresh('st'); pat = 'Done (%s, %s)' % ('None' if null else 'Some %s' % x if v else '_', ns); t.env['bitstream_parser_state'] = (ns, 'state')
            elif shape == 'bits': ns = t.fresh('st'); pat = 'Done (%s, %s)' % (x, ns); t.env['bitstream_parser_state'] = (ns, 'state')
            else: pat = 'Done %s' % x
            lines.append('match %s with %s =>' % (call, pat)); close.append('| _ => false end'); lines.append(None)
            if v: t.env[v] = (x, 'null' if null else ty)
            continue
        m = re.fullmatch(r'auto ?&? ?(\w+) = (.*)', s)
        if m:
            w, e, ty = t.path(m.group(2))
            for oe, v in w: lines.append('match %s with Some %s =>' % (oe, v)); close.append('| None => false end'); lines.append(None)
            v = t.fresh(); lines.append('let %s := %s in' % (v, e)); t.env[m.group(1)] = (v, ty); continue
        if s.startswith('char checksum_printable') or 'checksum->fdump' in s or s.startswith('EXPECT_STREQ'): t.skipped.append(s); continue
        raise Exception('%s: %s' % (name, s))
    out = ['Example %s :' % name]
    for l in lines:
        if l: out.append('  ' + l)
    out.append('  true' + ' '.join([''] + close[::-1]) + ' = true.'); out.append('Proof. vm_compute. reflexivity. Qed.')
    return '\n'.join(out), t.skipped

HEAD = '''(** The unit tests of /repo/test run on the model: generated by tools/mktests.py, do not edit.
    They are tests, not properties: they compare the model with what the authors of the code observed on it.
    [with_checksum]: add_checksum = true; set_*: bitstream_parser_state.*[id] = ...; a mock parameter set has the default values of the C++ struct. *)
From Coq Require Import ZArith List Bool.
From Verif Require Import MBase MBitBuffer MCommon MFraming MSyntaxA MProfile MSyntaxB MSps MPps MSlice MSei MNal MRtp.
Import ListNotations.
Open Scope Z_scope.
Definition with_checksum : options := mkOpts (add_offset default_options) (add_length default_options) (add_parsed_length default_options) true (add_resolution default_options).
Definition set_vps (s : state) (k : Z) (v : vps_body * Z) : state := mkState (fun i => if i =? k then Some v else st_vps s i) (st_sps s) (st_pps s).
Definition set_sps (s : state) (k : Z) (v : sps * Z) : state := mkState (st_vps s) (fun i => if i =? k then Some v else st_sps s i) (st_pps s).
Definition set_pps (s : state) (k : Z) (v : pps * Z) : state := mkState (st_vps s) (st_sps s) (fun i => if i =? k then Some v else st_pps s i).
Fixpoint same (a b : list Z) : bool := match a, b with [], [] => true | x :: a, y :: b => (x =? y) && same a b | _, _ => false end.
Definition only_key_0 {A} (m : Z -> option A) : bool := forallb (fun k => match m (Z.of_nat k) with Some _ => Nat.eqb k 0 | None => negb (Nat.eqb k 0) end) (List.seq 0 64).
(** scaling_list_data in the order of the C++ vectors: sizeId, then matrixId; for 32x32 the entries between two that were read are empty (0). *)
Definition no_list : scaling_list := mkSL 0 0 0 [] [].
Definition by_matrix (l : list (list scaling_list)) : list (list scaling_list) :=
  match l with [a; b; c; [d; e]] => [a; b; c; [d; no_list; no_list; e; no_list; no_list]] | _ => l end.
(** scaling_list_dc_coef_minus8[sizeId - 2][matrixId]: the vectors of the last two sizes are filled with zeros. *)
Definition dc_vectors (l : list (list scaling_list)) : list (list Z) :=
  match map (map sl_dc) (by_matrix l) with [_; _; c; d] => [c; d; repeat 0 6; repeat 0 6] | v => v end.
'''
def main():
    print(HEAD); allskip = []
    for f in sorted(glob.glob(TEST + '/*_unittest.cc')):
        raw = open(f).read(); src = strip(raw); base = os.path.basename(f)[5:-12]
        print('(** * test/%s *)' % os.path.basename(f))
        glob_env = {}
        for m in re.finditer(r'^const uint8_t (\w+)\[\] = \{(.*?)\};', src, re.S | re.M):
            n = '%s_%s' % (base, m.group(1)); b = buffer_of('const uint8_t x[] = {%s}' % re.sub(r'\s+', ' ', m.group(2)))
            print('Definition %s : list Z := %s.' % (n, b[1])); glob_env[m.group(1)] = (n, 'data')
        for m in re.finditer(r'^TEST_F\((\w+),\s*(\w+)\)', src, re.M):
            name = 'T_%s_%s' % (base, m.group(2)); body = body_of(src, m.end())
            if m.group(2) == 'TestDeriveValuesOobBoundsCheck': continue
            if m.group(2) == 'TestMultipleRtpPackets':
                # unroll the loop over the packets
                vb = re.search(r'vbuffer = \{(.*?)\n  \};', body, re.S).group(1); bufs = re.findall(r'\{(.*?)\}', vb, re.S)
                blocks = re.findall(r'i == \d\) \{(.*?)\n    \}', body, re.S); loop = body[body.index('for ('):]
                pre = re.search(r'\{(.*?)if \(i == 0', loop, re.S).group(1)
                body = 'H265BitstreamParserState bitstream_parser_state;'
                for i, (bf, bl) in enumerate(zip(bufs, blocks)): body += 'const uint8_t buffer[] = {%s};' % bf + pre.replace('buffer.size()', 'arraysize(buffer)') + bl
            while True:
                lm = re.search(r'for \((?:uint32_t|size_t|int) (\w+) = 0; \w+ < (\d+); [^)]*\)', body)
                if not lm: break
                inner = body_of(body, lm.end()); endp = body.index('{', lm.end()) + len(inner) + 2
                body = body[:lm.start()] + ''.join(re.sub(r'\b%s\b' % lm.group(1), str(k), inner) for k in range(int(lm.group(2)))) + body[endp:]
            sts = statements(body)
            txt, sk = translate(name, sts, glob_env); print(txt); allskip += ['%s: %s' % (name, s) for s in sk]
        if base == 'common':
            # H265CommonMoreRbspDataTest: buffer, byte and bit offset, expected result; the position must not change
            for k, m in enumerate(re.finditer(r'\{"case[^"]*",\s*\{([^}]*)\},\s*(\d+),\s*(\d+),\s*(true|false)\}', raw)):
                d = buffer_of('const uint8_t x[] = {%s}' % re.sub(r'\s+', ' ', m.group(1)))[1]
                print('Example T_common_more_rbsp_data_%d : match more_rbsp_data (mkBB %s %d %s %s) with Ok r b => Bool.eqb r %s && (bb_byte b =? %s) && (bb_bit b =? %s) | _ => false end = true.\nProof. vm_compute. reflexivity. Qed.' % (k + 1, d, d.count(';') + 1, m.group(2), m.group(3), m.group(4), m.group(2), m.group(3)))
        if base == 'st_ref_pic_set_parser':
            print('''Example T_st_ref_pic_set_parser_TestDeriveValuesOobBoundsCheck :
  match DeriveValues (mkRPS 0 0 0 0 [] 8 8 (repeat (0, 1) 8) (repeat (0, 1) 8)) 1 99 (repeat (1, 1) 17) (mkBB [] 0 0 0) with Fail _ => true | _ => false end = true.
Proof. vm_compute. reflexivity. Qed.''')
    print('(** Not translated:'); 
    for s in allskip: print('    ' + s)
    print('*)')
main()
