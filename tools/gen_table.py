#!/usr/bin/env python3
"""Generates rocq/theories/Catalogue.v from src/operand.h and
rocq/theories/Table.v from src/table.h.

The macro-defined operands (DEFINE_FLAG, DEFINE_UINT, DEFINE_INT,
DEFINE_DOT_TABLE) are translated mechanically; the hand-written ones are
listed in HAND below with the model function they correspond to
(Operand.v).  Usage: gen_table.py /repo /verif/rocq/theories
"""
import re, sys

repo, out = sys.argv[1], sys.argv[2]
src = open(repo + '/src/operand.h').read()
lines = src.split('\n')

# blank the macro definitions, keep the line structure
text = src
m = re.search(r'#define DEFINE_OPERAND.*?typedef error', text, re.S)
text = text[:m.start()] + re.sub(r'[^\n]', ' ', m.group(0)) + text[m.end():]
text = re.sub(r'//[^\n]*', lambda m: ' ' * len(m.group(0)), text)

def line_of(pos):
    return text.count('\n', 0, pos) + 1

def balanced(pos):
    """pos points at '('; returns index after the matching ')'."""
    d = 0; i = pos; instr = False
    while True:
        c = text[i]
        if instr:
            if c == '"': instr = False
        elif c == '"': instr = True
        elif c == '(': d += 1
        elif c == ')':
            d -= 1
            if d == 0: return i + 1
        i += 1

def split_args(s):
    args = []; d = 0; cur = ''; instr = False
    for c in s:
        if instr:
            cur += c
            if c == '"': instr = False
            continue
        if c == '"': instr = True
        if c in '(<[{': d += 1
        if c in ')>]}': d -= 1
        if c == ',' and d == 0:
            args.append(cur.strip()); cur = ''
        else:
            cur += c
    if cur.strip(): args.append(cur.strip())
    return args

def cstr(s):
    assert s[0] == '"' and s[-1] == '"', s
    return s

def num(s):
    s = s.strip()
    if s == 'UINT32_MAX': return '4294967295'
    if s == 'UINT16_MAX': return '65535'
    if s.startswith('0x'): return str(int(s, 16))
    return s

def strlist(xs):
    return '[' + '; '.join(cstr(x) for x in xs) + ']'

# namespaces: name -> (start, end)
spaces = []
for m in re.finditer(r'^namespace (\w+)\s*\{', text, re.M):
    end = text.index('\n}', m.end())
    spaces.append((m.start(), end, m.group(1)))
def ns_of(pos):
    for a, b, n in spaces:
        if a <= pos < b: return n
    return None

defs = {}    # (ns, name, is_template) -> dict
order = []
pat = re.compile(r'(template\s*<(?P<targs>[^{;]*?)>\s*)?DEFINE_(?P<kind>FLAG|UINT|INT|DOT_TABLE|OPERAND)\s*(?=\()')
for m in pat.finditer(text):
    kind = m.group('kind')
    p = m.end()
    e = balanced(p)
    args = split_args(text[p + 1:e - 1])
    name = args[0]
    targs = []
    if m.group('targs') is not None:
        for a in split_args(m.group('targs')):
            mm = re.match(r'(int|bool|operand)\s+(\w+)(?:\s*=\s*(\w+))?$', a)
            assert mm, a
            targs.append((mm.group(1), mm.group(2), mm.group(3)))
    ns = ns_of(m.start())
    l0 = line_of(m.start() + (len(m.group(0)) - len(m.group(0).lstrip())))
    if kind == 'OPERAND':
        end = text.index('\n}' if ns is None else '\n    }', e) + 2
        l1 = line_of(end)
    else:
        l1 = line_of(e)
    d = dict(kind=kind, name=name, ns=ns, targs=targs, args=args[1:], l0=l0, l1=l1)
    order.append(d)

def coqname(ns, name, tmpl_dup=False):
    return 'op_' + (ns + '_' if ns else '') + name + ('_at' if tmpl_dup else '')

names = {}
for d in order:
    names.setdefault((d['ns'], d['name']), []).append(d)

def s2r_table():
    a = text.index('DEFINE_OPERAND(s2r)')
    a = text.index('{', text.index('static const char* table[]', a))
    b = text.index('nullptr', a)
    return split_args(text[a + 1:b].strip().rstrip(','))

def tests_table():
    a = text.index('DEFINE_OPERAND(flow_tests)')
    a = text.index('{', text.index('static const char* tests[]', a))
    b = text.index('nullptr', a)
    return split_args(text[a + 1:b].strip().rstrip(','))

BYTES_SHORTS = '["H0"; "INVALIDSIZE1"; "H1"; "INVALIDSIZE3"]'
# (ns, name): (params, body)
HAND = {
 (None, 'uimm_extended'): ('', 'OUimmExtended'),
 (None, 'comma'): ('', 'OComma'),
 (None, 'label'): ('', 'OLabel'),
 (None, 'dgpr'): ('address', 'OGpr address'),
 (None, 'sgpr'): ('address', 'OGpr address'),
 (None, 'mirror_dgpr'): ('address', 'OMirrorGpr address'),
 (None, 'cbuf'): ('', 'OCbuf'),
 (None, 'imm'): ('', 'OImm20'),
 (None, 'fimm'): ('', 'OFimm 20'),
 (None, 'fimm32'): ('', 'OFimm 32'),
 (None, 'dimm20'): ('', 'ODimm'),
 (None, 'fimm9_low'): ('neg_bit', 'OHalf 9 20 (Some neg_bit)'),
 (None, 'fimm9_high'): ('neg_bit', 'OHalf 9 30 (Some neg_bit)'),
 (None, 'fimm16_low'): ('', 'OHalf 16 20 None'),
 (None, 'fimm16_high'): ('', 'OHalf 16 36 None'),
 (None, 'bop'): ('address', 'OReqTable "." address ["AND"; "OR"; "XOR"; "INVALIDBOP3"] "expected .AND, .OR or .XOR"'),
 (None, 'pred'): ('address negable', 'OPred address negable'),
 (None, 'inverted_pred'): ('address', 'OInvPred address'),
 (None, 'neg'): ('address', 'OOptType ty_minus address'),
 (None, 'tilde'): ('address', 'OOptType ty_tilde address'),
 (None, 'abs'): ('address inner', 'OAbs address inner'),
 (None, 'po'): ('address1 address2', 'OPo address1 address2'),
 (None, 'default_rz'): ('address', 'ODefaultRz address'),
 ('memory', 'address'): ('imm_offset addr size shr', 'OMemAddress imm_offset addr size shr'),
 (None, 'flow_tests'): ('', 'OCcTests ' + strlist(tests_table()) + ' 0'),
 (None, 'store_cache'): ('address', 'ODotTable (Some 0%N) address [""; "CG"; "CS"; "WT"]'),
 ('ald', 'p'): ('', 'OReqText ".P" 2147483648 "expected .P"'),
 ('ald', 'phys'): ('', 'OReqText ".PHYS" 0 "expected .PHYS"'),
 ('ald', 'imm_attr'): ('', 'OImmAttr'),
 ('ald', 'patch_attr'): ('', 'OPatchAttr'),
 ('ald', 'phys_attr'): ('', 'OPhysAttr'),
 ('b2r', 'warp'): ('', 'OReqTextAfter ".WARP" 60129542144 65280 "expected .WARP"'),
 ('b2r', 'result'): ('', 'OReqTextAfter ".RESULT" 55834574848 65280 "expected .RESULT"'),
 (None, 'cc_text'): ('', 'OReqText "CC" 0 "expected CC"'),
 ('xmad', 'signs'): ('', 'OXmadSigns'),
 ('lop3', 'lut'): ('', 'OReqText ".LUT" 0 "expected .LUT"'),
 ('stg', 'size'): None,   # not used by the table
 ('f2f', 'rounding'): ('', 'OF2fRounding'),
 ('f2i', 'int_format'): ('', 'OIntFormat ["INVALID0"; "U16"; "U32"; "U64"] ["INVALID1"; "S16"; "S32"; "S64"] 8 12 "expected .U16, .U32, .U64, .S16, .S32 or .S64"'),
 ('p2r', 'mode'): ('address', 'OReqTable "" address ["PR"; "CC"] "expected PR or CC"'),
 ('ldc', 'address'): ('', 'OLdcAddress'),
 ('image', 'p'): ('', 'OReqText ".P" 0 "expected .P or .B"'),
 ('image', 'd'): ('', 'OReqText ".D" 4503599627370496 "expected .P or .B"'),
 (None, 's2r'): ('', 'OS2r s2r_table'),
 ('ldg', 'size'): ('', 'OLdgSize'),
 ('i2f', 'int_format'): ('', 'OIntFormat ["U8"; "U16"; "U32"; "U64"] ["S8"; "S16"; "S32"; "S64"] 10 13 "expected .U8, .U16, .U32, .U64, .S8, .S16, .S32 or .S64"'),
 ('i2f', 'selector'): ('', 'OSelector 10 1 ' + BYTES_SHORTS + ' 41'),
 ('i2i', 'format'): ('address sign_address', 'OIntFormat ["U8"; "U16"; "U32"] ["S8"; "S16"; "S32"] address sign_address "expected .U8, .U16, .U32, .S8, .S16 or .S32"'),
 ('i2i', 'selector'): ('', 'OSelector 10 1 ' + BYTES_SHORTS + ' 41'),
 (None, 'atomic_size'): ('address', 'OAtomicSize address'),
 ('lea', 'hi'): ('', 'OReqText ".HI" 0 "expected .HI"'),
 ('lea', 'lo'): ('', 'OOptText ".LO"'),
 ('shf', 'r'): ('', 'OReqText ".R" 0 "expected .R"'),
 ('shf', 'l'): ('', 'OReqText ".L" 0 "expected .L"'),
 ('video', 'src_format'): ('address sign_address', 'OSrcFormat address sign_address'),
 ('video', 'selector'): ('address type_address', 'OSelector type_address 2 ["H0"; "H1"] address'),
 ('video', 'imm_format'): ('address sign_address', 'ODotTable (Some 1%N) sign_address ["U16"; "S16"]'),
 (None, 'tex_type'): ('address', 'OTexType address'),
 (None, 'b_text'): ('', 'OReqText ".B" 0 "expected .B"'),
 (None, 'lod_text'): ('', 'OReqText ".LOD" 0 "expected .LOD"'),
 (None, 'zero'): ('', 'OZero'),
 (None, 'texs_mode'): ('address', 'OTexsMode address'),
 (None, 'tlds_type'): ('address', 'OTldsType address'),
 (None, 'texs_type'): ('address', 'OTexsType address'),
 (None, 'texs_swizzle'): ('', 'OTexsSwizzle'),
 ('txq', 'mode'): ('', 'OReqTable "" 22 [""; "TEX_HEADER_DIMENSION"; "TEX_HEADER_TEXTURE_TYPE"; ""; ""; "TEX_HEADER_SAMPLER_POS"] "invalid mode"'),
}

cat = []
seen = {}
for d in order:
    ns, name = d['ns'], d['name']
    dup = len(names[(ns, name)]) > 1
    cn = coqname(ns, name, dup and bool(d['targs']))
    d['coq'] = cn
    types = {'int': 'N', 'bool': 'bool', 'operand': 'opnd'}
    params = ' '.join('(%s : %s)' % (n, types[t]) for t, n, _ in d['targs'])
    if d['kind'] == 'OPERAND':
        h = HAND[(ns, name)]
        if h is None: d['coq'] = None; continue
        assert h[0].split() == [n for _, n, _ in d['targs']], (name, h[0], d['targs'])
        body = h[1]
    elif d['kind'] == 'FLAG':
        body = 'OFlag %s %s' % (cstr(d['args'][0]), num(d['args'][1]))
    elif d['kind'] == 'UINT':
        mx = d['args'][0]
        mm = re.match(r'max_bits\((\w+)\)$', mx)
        mx = '(Z.of_N (max_bits %s))' % mm.group(1) if mm else num(mx)
        body = 'OUint %s %s' % (mx, num(d['args'][1]))
    elif d['kind'] == 'INT':
        body = 'OInt %s %s' % (num(d['args'][0]), num(d['args'][1]))
    else:
        dv = int(d['args'][0])
        tbl = d['args'][2:]
        body = 'ODotTable %s %s %s' % ('None' if dv < 0 else '(Some %d%%N)' % dv, num(d['args'][1]), strlist(tbl))
    cpp = (ns + '::' if ns else '') + name
    cat.append('(** %s: operand.h:%d-%d. *)\nDefinition %s%s : opnd :=\n  %s.\n' %
               (cpp, d['l0'], d['l1'], cn, ' ' + params if params else '', body))
    if cn == 'op_ldc_address':
        pass

f = open(out + '/Catalogue.v', 'w')
f.write('''(** * Catalogue: every operand named by /repo/src/operand.h.

    Generated by tools/gen_table.py; do not edit.  Template parameters become
    parameters.  [stg::size] (operand.h:682-693) is not used by the
    instruction table and is left out. *)
From Verif Require Import Base Lexer Operand.
Local Open Scope string_scope.
Open Scope N_scope.

(** The system registers of [s2r], operand.h:900-1158. *)
Definition s2r_table : list string :=
  %s.

''' % strlist(s2r_table()).replace('; ', ';\n   '))
f.write('\n'.join(cat))
f.close()

# ---- table.h
tl = open(repo + '/src/table.h').read().split('\n')

def conv_operand(s):
    s = s.strip()
    m = re.match(r'(?:(\w+)::)?(\w+)\s*(?:<(.*)>)?$', s, re.S)
    assert m, s
    ns, name, ta = m.groups()
    cands = names[(ns, name)]
    if len(cands) > 1:
        d = [c for c in cands if bool(c['targs']) == (ta is not None)][0]
    else:
        d = cands[0]
    args = split_args(ta) if ta else []
    actual = []
    for i, (t, n, dflt) in enumerate(d['targs']):
        a = args[i] if i < len(args) else dflt
        assert a is not None, s
        if t == 'operand':
            a = conv_operand(a)
            if ' ' in a: a = '(%s)' % a
        actual.append(a)
    assert len(args) <= len(d['targs']), s
    return ' '.join([d['coq']] + actual)

entries = []
start = [i for i, l in enumerate(tl) if l.startswith('const insn table[]')][0]
for i in range(start + 1, len(tl)):
    l = tl[i].strip()
    if l == '};': break
    if not l or l.startswith('//'): continue
    assert l.startswith('INSN(') and l.endswith('),'), l
    a = split_args(l[5:-2])
    opc = int(re.match(r'0x([0-9a-fA-F]+)(ULL|ull)$', a[0]).group(1), 16)
    flags = {'0': 0, 'RD|WR': 6, 'RD': 2, 'NO_PRED': 1}[a[1]]
    ops = [conv_operand(x) for x in a[3:]]
    entries.append((i + 1, opc, flags, a[2], ops))

f = open(out + '/Table.v', 'w')
f.write('''(** * Table: the instruction table of /repo/src/table.h:31-302.

    Generated by tools/gen_table.py; do not edit.  One entry per INSN line, in
    the order of the source, with its line number. *)
From Verif Require Import Base Lexer Operand Catalogue.
Local Open Scope string_scope.
Open Scope N_scope.

(** table.h:18-20. *)
Definition NO_PRED : N := 1.
Definition RD : N := 2.
Definition WR : N := 4.

(** table.h:22-28. *)
Record insn := Insn { i_opcode : N; i_flags : N; i_mnemonic : string; i_operands : list opnd }.

Definition table : list insn := [
''')
for k, (ln, opc, fl, mn, ops) in enumerate(entries):
    f.write('  (* table.h:%d *)\n  Insn 0x%016X %d %s\n    [%s]%s\n' %
            (ln, opc, fl, mn, '; '.join(ops), ';' if k + 1 < len(entries) else ''))
f.write('].\n')
f.close()
print(len(order), 'operands,', len(entries), 'instructions')
