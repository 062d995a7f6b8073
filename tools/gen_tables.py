#!/usr/bin/env python3
"""Transcribe the declarations of /repo/ublox/src/ubx_packets/{packets,cfg_val}.rs into Rocq tables.

Writes rocq/theories/TableTypes.v, TablePackets.v and TableCfg.v.  The output is committed; the
script is only a transcription aid (it knows no more than the attribute grammar of input.rs)."""
import re, sys, os
REPO = '/repo/ublox/src/ubx_packets/'
OUT = os.path.join(os.path.dirname(os.path.abspath(__file__)), '../rocq/theories/')

def strip_comments(s):
    s = re.sub(r'/\*.*?\*/', lambda m: re.sub(r'[^\n]', ' ', m.group(0)), s, flags=re.S)
    return re.sub(r'//[^\n]*', lambda m: ' ' * len(m.group(0)), s)

src = strip_comments(open(REPO + 'packets.rs').read())
def line(pos): return src.count('\n', 0, pos) + 1

def match_close(s, i, o, c):
    d = 0
    while True:
        if s[i] == o: d += 1
        elif s[i] == c:
            d -= 1
            if d == 0: return i
        i += 1

def skip_ws(i):
    while src[i].isspace(): i += 1
    return i

def read_attrs(i):
    """attributes starting at i: list of texts, next position"""
    out = []
    while True:
        i = skip_ws(i)
        if src[i] == '#':
            j = match_close(src, src.index('[', i), '[', ']')
            out.append(re.sub(r'\s+', ' ', src[i+2:j]).strip())
            i = j + 1
        else:
            return out, i

def split_args(s):
    out, d, cur, q = [], 0, '', False
    for ch in s:
        if ch == '"': q = not q
        if ch in '([<{' and not q: d += 1
        if ch in ')]>}' and not q: d -= 1
        if ch == ',' and d == 0 and not q:
            out.append(cur.strip()); cur = ''
        else: cur += ch
    if cur.strip(): out.append(cur.strip())
    return out

def ubx_attr(attrs):
    d = {}
    for a in attrs:
        m = re.match(r'ubx\((.*)\)$', a)
        if m:
            for arg in split_args(m.group(1)):
                if '=' in arg:
                    k, v = arg.split('=', 1); d[k.strip()] = v.strip()
                else: d[arg] = True
    return d

def num(s): return int(s.replace('_', ''), 0)
def snake(n):
    if n == 'MgaGpsEPH': return 'mga_gps_EPH'
    return re.sub(r'(?<=[a-z0-9])(?=[A-Z])', '_', n).lower()

# ---- enums and bitflags
enums, flags = {}, {}
for m in re.finditer(r'#\[ubx_extend\]', src):
    attrs, i = read_attrs(m.start())
    e = re.compile(r'(?:pub )?enum (\w+)\s*\{').match(src, i)
    end = match_close(src, e.end() - 1, '{', '}')
    body = src[e.end():end]
    vs = []
    for part in split_args(re.sub(r'#\[[^\]]*\]', '', body)):
        k, v = part.split('='); vs.append((k.strip(), num(v.strip())))
    enums[e.group(1)] = dict(ubx=ubx_attr(attrs), vs=vs, l0=line(i), l1=line(end))
for m in re.finditer(r'#\[ubx_extend_bitflags\]', src):
    attrs, i = read_attrs(m.start())
    assert src.startswith('bitflags!', i)
    j = src.index('{', i) + 1
    _, j = read_attrs(j)
    e = re.compile(r'(?:pub )?struct (\w+)\s*:\s*(u\d+)\s*\{').match(src, j)
    end = match_close(src, e.end() - 1, '{', '}')
    cs = [(a, num(b)) for a, b in re.findall(r'const (\w+)\s*=\s*(\w+);', src[e.end():end])]
    assert len(cs) == src[e.end():end].count('const ')
    flags[e.group(1)] = dict(ubx=ubx_attr(attrs), repr=e.group(2), cs=cs, l0=line(i), l1=line(end))

# ---- packets
def scale_lit(s):
    m = re.match(r'^(\d+)(?:\.(\d*))?(?:e([+-]?\d+))?$', s)
    assert m, s
    ip, fp, ex = m.group(1), m.group(2) or '', int(m.group(3) or 0)
    mant, exp = int(ip + fp), ex - len(fp)
    while mant % 10 == 0: mant //= 10; exp += 1
    return mant, exp

SC = dict(u8='U8', i8='I8', u16='U16', i16='I16', u32='U32', i32='I32', f32='F32', f64='F64')
WORDS = {'FixStatusInfo', 'NavSatSvFlags', 'TimTpFlags', 'TimTpRefInfo', 'TimTm2Flags'}
ITERS = {
  'NavSatIter': 'offset_iter_map (fun l => Ret (nav_sat_is_valid l))',
  'MonVerExtensionIter': 'offset_iter_map mon_ver_ext_is_valid',
  'RxmRawxInfoIter': 'chunks_iter_map rawx_new rawx_is_valid',
  'EsfMeasDataIter': 'chunks_iter_map esf_meas_new esf_meas_is_valid',
  'EsfRawDataIter': 'chunks_iter_map esf_raw_new esf_raw_is_valid',
  'DwrdIter': 'chunks_iter_map dwrd_new dwrd_is_valid',
}
def mapping(a, ty, raw):
    mt = a.get('map_type')
    if mt is None:
        assert 'scale' not in a
        return 'None'
    may_fail = 'may_fail' in a
    if mt in ('f32', 'f64'):
        assert not may_fail
        sc = 'None'
        if 'scale' in a:
            mm, ee = scale_lit(a['scale'])
            sc = f'(Some ({mm}%positive, {ee}%Z))' if ee >= 0 else f'(Some ({mm}%positive, ({ee})%Z))'
        return f'Some (float_map FTy{mt[1:]} {SC[raw]} {sc})'
    assert 'scale' not in a
    if mt in enums:
        assert raw == 'u8' and 'from' not in a and 'is_valid' not in a
        return f'Some (enum_map e_{snake(mt)} {"true" if may_fail else "false"})'
    if mt in flags:
        assert raw == flags[mt]['repr'] and not may_fail and 'from' not in a
        return f'Some (flags_map {SC[raw]} bf_{snake(mt)})'
    if mt in WORDS: assert not may_fail; return f'Some (word_map {SC[raw]})'
    if mt == 'CfgItfmConfig': return 'Some itfm_config_map'
    if mt == 'CfgItfmConfig2': return 'Some itfm_config2_map'
    if mt == 'UartMode': assert not may_fail; return 'Some uart_mode_map'
    if mt == 'ResetMode': return f'Some (c_like_map {SC[raw]} reset_mode_variants)'
    if mt == 'AlignmentToReferenceTime': return f'Some (c_like_map {SC[raw]} alignment_variants)'
    if mt == '&str':
        assert a['from'] == 'mon_ver::convert_to_str_unchecked' and a['is_valid'] == 'mon_ver::is_cstr_valid' and may_fail
        return f'Some (cstr_map {re.match(r".u8; (.*).$", raw).group(1)})'
    if mt == 'Option<&str>':
        assert a['from'] == 'inf::convert_to_str' and a['is_valid'] == 'inf::is_valid' and may_fail
        return 'Some inf_map'
    if mt == 'Option<u32>':
        assert a['from'] == 'EsfMeas::calib_tag' and not may_fail
        return 'Some calib_tag_map'
    if mt in ITERS:
        assert a['from'] == mt + '::new' and a['is_valid'] == mt + '::is_valid' and may_fail
        return f'Some ({ITERS[mt]})'
    raise Exception(mt)

packets = []
for m in re.finditer(r'#\[ubx_packet_(recv_send|recv|send)\]', src):
    attrs, i = read_attrs(m.start())
    e = re.compile(r"(?:pub )?struct (\w+)(?:<'a>)?\s*\{").match(src, i)
    end = match_close(src, e.end() - 1, '{', '}')
    u = ubx_attr(attrs)
    fs, i = [], e.end()
    while skip_ws(i) < end:
        fa, i = read_attrs(i)
        fm = re.compile(r"(?:pub )?(\w+)\s*:\s*([^,}]*)\s*(,|(?=\}))").match(src, i)
        fs.append(dict(a=ubx_attr(fa), name=fm.group(1), ty=fm.group(2).strip(), line=line(i)))
        for k in fs[-1]['a']:
            assert k in ('map_type', 'scale', 'alias', 'may_fail', 'from', 'is_valid', 'get_as_ref', 'size_fn'), k
        i = fm.end()
    packets.append(dict(kind=m.group(1), u=u, name=e.group(1), fs=fs, l0=line(m.start()), l1=line(end)))

def str_(s): return '"' + s + '"'
def emit_field(f):
    a, ty = f['a'], f['ty']
    if ty in SC: t = f'(Scalar {SC[ty]})'
    elif re.match(r'\[u8; \d+\]$', ty): t = f'(Bytes {re.search(r"; (.*).$", ty).group(1)})'
    elif ty == "&'a [CfgVal]": t = 'Items'
    else: raise Exception(ty)
    al = f'(Some {str_(a["alias"])})' if 'alias' in a else 'None'
    mp = mapping(a, t, ty)
    if mp != 'None': mp = f'({mp})'
    sf = {None: 'None', 'data_len': '(Some esf_meas_data_len)', 'calib_tag_len': '(Some esf_meas_calib_tag_len)'}[a.get('size_fn')]
    gr = 'true' if 'get_as_ref' in a else 'false'
    return f'    mk_field {str_(f["name"])} {al} {t} {mp} {gr} {sf}'

HDR = '''(** * %s

    Written by tools/gen_tables.py from the declarations in packets.rs; the comments give the lines. *)
'''
def chunk(items, sep='; ', ind='     ', width=100):
    out, cur = [], ''
    for k, it in enumerate(items):
        it = it + (sep if k < len(items) - 1 else '')
        if len(cur) + len(it) > width: out.append(cur.rstrip()); cur = ''
        cur += it
    out.append(cur)
    return ('\n' + ind).join(out)

with open(OUT + 'TableTypes.v', 'w') as o:
    o.write(HDR % 'The enums and bit flags declared with [ubx_extend] and [ubx_extend_bitflags]')
    o.write('From Coq Require Import String List NArith.\nFrom Verif Require Import Enums.\nImport ListNotations.\nOpen Scope N_scope.\nOpen Scope string_scope.\n\n')
    for n, e in enums.items():
        u = e['ubx']
        rest = 'Some RestReserved' if 'rest_reserved' in u else 'Some RestError' if 'rest_error' in u else 'None'
        o.write(f'(** packets.rs {e["l0"]}-{e["l1"]} *)\nDefinition e_{snake(n)} : enum_desc :=\n  mk_enum {str_(n)}\n    [{chunk([f"({str_(k)}, {v})" for k, v in e["vs"]])}]\n    ({rest}).\n\n')
    for n, e in flags.items():
        o.write(f'(** packets.rs {e["l0"]}-{e["l1"]} *)\nDefinition bf_{snake(n)} : flags_desc :=\n  mk_flags {str_(n)} {e["repr"][1:]}\n    [{chunk([f"({str_(k)}, {v})" for k, v in e["cs"]])}].\n\n')
    o.write('Definition all_enums : list enum_desc :=\n  [' + chunk([f'e_{snake(n)}' for n in enums], ind='   ') + '].\n\n')
    o.write('Definition all_flags : list flags_desc :=\n  [' + chunk([f'bf_{snake(n)}' for n in flags], ind='   ') + '].\n')
    o.write('\n(** Those whose attribute asks for [from] (resp. [from_unchecked]) and for [into_raw] *)\n')
    for nm, key in (('enums_from', 'from'), ('enums_from_unchecked', 'from_unchecked'), ('enums_into_raw', 'into_raw')):
        o.write(f'Definition {nm} : list enum_desc :=\n  [' + chunk([f'e_{snake(n)}' for n in enums if key in enums[n]['ubx']], ind='   ') + '].\n')

with open(OUT + 'TablePackets.v', 'w') as o:
    o.write(HDR % 'The packets declared in packets.rs')
    o.write('From Coq Require Import String List NArith ZArith.\nFrom Verif Require Import Base PackDesc Enums Floats Bits Utf8 Iterators TableTypes.\nImport ListNotations.\nOpen Scope N_scope.\nOpen Scope string_scope.\n\n')
    for p in packets:
        u = p['u']
        ln = f'(Fixed {num(u["fixed_payload_len"])})' if 'fixed_payload_len' in u else f'(Max {num(u["max_payload_len"])})'
        o.write(f'(** packets.rs {p["l0"]}-{p["l1"]}, [ubx_packet_{p["kind"]}] *)\n')
        o.write(f'Definition p_{snake(p["name"])} : pack_desc :=\n  mk_desc {str_(p["name"])} x{num(u["class"]):02x} x{num(u["id"]):02x} {ln} [\n')
        rows = []
        for k, f in enumerate(p['fs']):
            rows.append(emit_field(f) + (';' if k < len(p['fs']) - 1 else '') + f' (* {f["line"]} *)')
        o.write('\n'.join(rows) + '\n  ].\n\n')
    m = re.search(r'define_recv_packets!\(', src)
    end = match_close(src, m.end() - 1, '(', ')')
    body = src[m.end():end]
    names = re.search(r'enum PacketRef\s*\{(.*)\}', body, re.S).group(1)
    table = [n for n in split_args(re.sub(r'\s+', ' ', names))]
    assert table[0].startswith('_ =') , table[0]
    assert table[0] == '_ = UbxUnknownPacketRef', table[0]
    table = table[1:]
    o.write(f'(** packets.rs {line(m.start())}-{line(end)}: [define_recv_packets!], in this order *)\n')
    o.write('Definition recv_table : list pack_desc :=\n  [' + chunk([f'p_{snake(n)}' for n in table], ind='   ') + '].\n\n')
    allk = {p['name']: p for p in packets}
    for n in table: assert 'recv' in allk[n]['kind'], n
    o.write('(** Every packet with receiving code, and every packet with a builder *)\n')
    o.write('Definition recv_packets : list pack_desc :=\n  [' + chunk([f'p_{snake(p["name"])}' for p in packets if 'recv' in p['kind']], ind='   ') + '].\n')
    o.write('Definition send_packets : list pack_desc :=\n  [' + chunk([f'p_{snake(p["name"])}' for p in packets if 'send' in p['kind']], ind='   ') + '].\n')

# ---- cfg_val.rs
csrc = strip_comments(open(REPO + 'cfg_val.rs').read())
m = re.search(r'\ncfg_val! \{', csrc)
end = match_close(csrc, m.end() - 1, '{', '}')
body = csrc[m.end():end]
rows = [(a, int(k, 16), t, csrc.count('\n', 0, m.end() + mm.start(1)) + 1)
        for mm in re.finditer(r'(\w+)\s*,\s*(0x[0-9a-fA-F]+)\s*,\s*(\w+)\s*,', body) for a, k, t in [mm.groups()]]
assert len(rows) * 3 == body.count(','), (len(rows), body.count(','))
CT = dict(bool='TBool', u8='TU8', u16='TU16', i16='TI16', u32='TU32', u64='TU64', CfgInfMask='TCfgInfMask',
          DataBits='TDataBits', Parity='TParity', StopBits='TStopBits', AlignmentToReferenceTime='TAlignment',
          TpPulse='TTpPulse', TpPulseLength='TTpPulseLength')
with open(OUT + 'TableCfg.v', 'w') as o:
    o.write('''(** * The table of configuration keys, cfg_val.rs %d-%d

    Written by tools/gen_tables.py; the comments give the lines. *)
From Coq Require Import String List NArith.
From Verif Require Import CfgVal.
Import ListNotations.
Open Scope N_scope.
Open Scope string_scope.

Definition cfg_table : list cfg_item := [
''' % (csrc.count('\n', 0, m.start() + 1) + 1, csrc.count('\n', 0, end) + 1))
    o.write('\n'.join(f'  mk_cfg_item "{a}" 0x{k:08x} {CT[t]}{";" if i < len(rows) - 1 else ""} (* {l} *)' for i, (a, k, t, l) in enumerate(rows)))
    o.write('\n].\n')
print(len(enums), 'enums', len(flags), 'flags', len(packets), 'packets', len(table), 'in table', len(rows), 'keys')
