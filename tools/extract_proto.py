#!/usr/bin/env python3
"""Transcribe the generated decoders of /repo/src/versions/protocol*/mod.rs into
Coq descriptors (ByteTypes.v, BitTypes.v).

Every function body must match one of the shapes below *exactly* after
comments, tracing macros and white space are removed; anything else aborts.
So a descriptor is not an interpretation of the JSON protocol: it is the text
of the Rust function, folded."""
import re, sys, os

REPO = '/repo/src/versions/'
OUT = sys.argv[1] if len(sys.argv) > 1 else '/verif/rocq/theories'

def strip_macros(s):
    out = ''; i = 0
    while i < len(s):
        m = re.compile(r'tracing::\w+!\s*\(').match(s, i)
        if m:
            j = m.end(); d = 1; instr = False
            while d:
                ch = s[j]
                if instr:
                    if ch == '\\': j += 1
                    elif ch == '"': instr = False
                else:
                    if ch == '"': instr = True
                    elif ch == '(': d += 1
                    elif ch == ')': d -= 1
                j += 1
            assert s[j] == ';'
            i = j + 1
        else:
            out += s[i]; i += 1
    return out

def norm(s):
    s = re.sub(r'//[^\n]*', '', s)
    s = strip_macros(s)
    s = re.sub(r'\s+', ' ', s)
    s = re.sub(r',\s*([)}\]])', r' \1', s)       # trailing commas
    s = re.sub(r'\s*([(){}\[\];,=<>.:?!&|*+])\s*', r'\1', s)
    return s.strip()

class Mod:
    """one `pub mod` of a file: impl blocks with their functions"""
    def __init__(self, path, lo, hi):
        self.path = path
        L = open(path).read().split('\n')
        self.impls = {}     # type -> {fn: (body, line)}
        self.imports = []
        cur = None
        i = lo
        while i < hi:
            l = L[i]
            m = re.match(r'    pub use crate::versions::protocol87702::(\w+)::(\w+);', l)
            if m: self.imports.append(m.group(2))
            m = re.match(r'    impl (\w+) \{', l)
            if m: cur = m.group(1); self.impls.setdefault(cur, {})
            elif re.match(r'    impl ', l): cur = None
            m = re.match(r'        pub fn (\w+)\(', l)
            if m and cur:
                j = i
                while L[j] != '        }': j += 1
                txt = '\n'.join(L[i:j+1])
                self.impls[cur][m.group(1)] = (norm(txt), i + 1, j + 1)
                i = j
            i += 1

def die(*a):
    print(*a, file=sys.stderr); sys.exit(1)

def body(fn, sig):
    m = re.fullmatch(sig, fn)
    if not m: die('bad signature', fn[:200], sig)
    return m.group(1)

q = lambda s: '"%s"' % s

# ---------------------------------------------------------------- byte aligned
BSIG = r'pub fn \w+\(input:&\[u8\] ?\)->S2ProtoResult<&\[u8\],(?:.*?)>\{(.*)\}'
ITY = {'u8': 'IU8', 'u32': 'IU32', 'u64': 'IU64', 'i32': 'II32', 'i64': 'II64'}
ARR_HEAD = (r'let\(tail,_\)=validate_array_tag\((?:tail|input)\)\?;let\(mut tail,array_length\)=parse_vlq_int\(tail\)\?;'
  r'let array_length=array_length as usize;let max_initial_capacity=MAX_INITIAL_CAPACITY_BYTES / std::mem::size_of::<\w+>\(\)\.max\(1\);'
  r'let mut array=Vec::with_capacity\(array_length\.min\(max_initial_capacity\)\);for _ in 0\.\.array_length\{let\(new_tail,data\)=(\w+(?:::parse)?)\(tail\)\?;tail=new_tail;array\.push\((<_>::try_from\(data\)\?|data\.try_into\(\)\?|data)\);\}')

def ret_ty(fn):
    m = re.match(r'pub fn \w+\(input:&\[u8\] ?\)->S2ProtoResult<&\[u8\],(.*?)>\{', fn)
    return m.group(1)

def ba_prim(call, conv, ity, ref):
    if call == 'tagged_vlq_int':
        return '(TInt %s)' % ITY[ity]
    assert not conv or conv == 'data' , (call, conv)
    if call == 'tagged_blob': return 'TBlob'
    if call == 'tagged_bool': return 'TBool'
    if call == 'tagged_fourcc': return 'TFourcc'
    assert call.endswith('::parse'), call
    return ref(call[:-7])

def ba_field(name, fn, ref):
    b = body(fn, BSIG); rt = ret_ty(fn); F = re.escape(name)
    m = re.fullmatch(r'let\(tail,%s\)=(\w+(?:::parse)?)\(input\)\?;Ok\(\(tail,(?:(\w+)::try_from\(%s\)\? ?|%s)\)\)' % (F, F, F), b)
    if m:
        call, ity = m.groups()
        if call == 'tagged_vlq_int':
            ity = ity or 'i64'; assert rt == ity, (name, rt, ity)
        else: assert ity is None
        return ba_prim(call, None, ity, ref)
    m = re.fullmatch(r'let\(tail,_\)=validate_opt_tag\(input\)\?;let\(tail,is_provided\)=nom::number::complete::u8\(tail\)\?;let\(tail,%s\)=if is_provided!=0\{(.*)\}else\{\(tail,None\)\};Ok\(\(tail,%s\)\)' % (F, F), b)
    if m:
        inner = m.group(1)
        m2 = re.fullmatch(r'let\(tail,res\)=(\w+)\(tail\)\?;\(tail,Some\((<_>::try_from\(res\)\?|res)\)\)', inner)
        if m2:
            call, conv = m2.groups()
            it = re.fullmatch(r'Option<(\w+)', rt) or re.fullmatch(r'Option<(\w+)>', rt)
            if call == 'tagged_vlq_int':
                assert conv != 'res'
                return '(TOpt %s)' % ba_prim(call, None, it.group(1), ref)
            assert conv == 'res'
            return '(TOpt %s)' % ba_prim(call, None, None, ref)
        m2 = re.fullmatch(ARR_HEAD + r'\(tail,Some\(array\)\)', inner)
        if m2:
            call, conv = m2.groups()
            it = re.match(r'Option<Vec<(\w+)', rt).group(1)
            if call == 'tagged_vlq_int': assert conv != 'data'
            return '(TOpt (TArray %s))' % ba_prim(call, conv if conv == 'data' else None, it, ref)
        die('opt shape', name, inner)
    m = re.fullmatch(ARR_HEAD + r'Ok\(\(tail,array\)\)', b)
    if m:
        call, conv = m.groups()
        it = re.match(r'Vec<(\w+)', rt).group(1)
        if call == 'tagged_vlq_int': assert conv != 'data'
        return '(TArray %s)' % ba_prim(call, conv if conv == 'data' else None, it, ref)
    die('field shape', name, b)

def ba_type(ty, fns, ref):
    fn, lo, hi = fns['parse']
    b = body(fn, BSIG)
    m = re.fullmatch(r'let\(tail,_\)=validate_(int|choice)_tag\(input\)\?;let\(tail,variant_tag\)=parse_vlq_int\(tail\)\?;match variant_tag\{(.*)_=>\{Err\(S2ProtocolError::UnknownTag\(variant_tag\)\)\}\}', b)
    if m:
        tag, arms = m.groups()
        items = []; pos = 0
        kind = None
        pat = re.compile(r'(\d+)=>\{(.*?)\}(?=\d+=>|$)')
        for mm in pat.finditer(arms):
            assert mm.start() == pos; pos = mm.end()
            n, a = mm.groups()
            x = re.fullmatch(r'Ok\(\(tail,Self::(\w+)\)\)', a)
            if x:
                assert kind in (None, 'enum'); kind = 'enum'
                items.append('(%s, %s)' % (n, q(x.group(1)))); continue
            x = re.fullmatch(r'let\(tail,res\)=tagged_vlq_int\(tail\)\?;Ok\(\(tail,Self::(\w+)\((\w+)::try_from\(res\)\?\)\)\)', a)
            if x:
                assert kind in (None, 'choice'); kind = 'choice'
                items.append('(%s, %s, TInt %s)' % (n, q(x.group(1)), ITY[x.group(2)])); continue
            x = re.fullmatch(r'let\(tail,res\)=(\w+)::parse\(tail\)\?;Ok\(\(tail,Self::(\w+)\(res\)\)\)', a)
            if x:
                assert kind in (None, 'choice'); kind = 'choice'
                items.append('(%s, %s, %s)' % (n, q(x.group(2)), ref(x.group(1)))); continue
            die('arm', ty, a)
        assert pos == len(arms), (ty, arms[pos:])
        if kind == 'enum':
            assert tag == 'int'
            return 'TEnum [%s]' % '; '.join(items)
        return 'TChoice %s [%s]' % ('INT_TAG' if tag == 'int' else 'CHOICE_TAG', ';\n    '.join(items))
    m = re.fullmatch(ARR_HEAD + r'Ok\(\(tail,Self\{value:array\}\)\)', b)
    if m:
        assert m.group(2) == 'data'
        return 'TArray %s' % ba_prim(m.group(1), 'data', None, ref)
    m = re.fullmatch(r'let\(tail,_\)=validate_struct_tag\(input\)\?;let\(mut tail,struct_field_count\)=parse_vlq_int\(tail\)\?;((?:let mut \w+:[^;]*;)*)for (?:i|_i) in 0\.\.\(struct_field_count as usize\)\{let\(new_tail,field_tag\)=parse_vlq_int\(tail\)\?;tail=new_tail;match field_tag\{(.*)_=>\{return Err\(S2ProtocolError::UnknownTag\(field_tag\)\);\}\}\}(.*)', b)
    if m:
        decls, arms, fin = m.groups()
        init = {}
        for d in re.findall(r'let mut (\w+):(.*?);', decls):
            x = re.fullmatch(r'(Option<.*>)=(None|Some\(None\))', d[1])
            assert x, (ty, d)
            if x.group(2) == 'Some(None)': assert x.group(1).startswith('Option<Option<')
            else: assert not x.group(1).startswith('Option<Option<')
            init[d[0]] = 'InitNone' if x.group(2) == 'None' else 'InitSomeNone'
        x = re.fullmatch(r'let res=Self\{(.*)\};Ok\(\(tail,res\)\)', fin) or re.fullmatch(r'Ok\(\(tail,Self\{(.*)\} ?\)\)', fin)
        assert x, (ty, fin)
        fins = []
        rest = x.group(1)
        for part in re.split(r',(?=m_\w+:)', rest):
            y = re.fullmatch(r'(\w+):ok_or_return_missing_field_err!\((\w+)\) ?', part)
            if y:
                assert y.group(1) == y.group(2)
                fins.append((y.group(1), 'FinReq')); continue
            y = re.fullmatch(r'(\w+):(\w+)\.unwrap_or\(b""\[\.\.\]\.to_vec\(\)\) ?', part)
            if y:
                assert y.group(1) == y.group(2)
                fins.append((y.group(1), '(FinDefault (VBytes []))')); continue
            die('fin', ty, part)
        findict = dict(fins)
        assert [f for f, _ in fins] == list(init), (ty, fins, list(init))
        flds = {}; pos = 0; order = []
        pat = re.compile(r'(\d+)=>\{if (?:(\w+)\.is_none\(\)|let Some\(None\)=(\w+))\{let\(new_tail,parsed_(\w+)\)=Self::parse_(\w+)\(tail\)\?;tail=new_tail;(\w+)=Some\(parsed_(\w+)\);continue;\}else\{return Err\(S2ProtocolError::DuplicateTag\(String::from\("(\w+)"\),(\d+) ?\)\);\}\}')
        for mm in pat.finditer(arms):
            assert mm.start() == pos, (ty, arms[pos:mm.start()]); pos = mm.end()
            n, a1, a2, p1, p2, p3, p4, dn, dt = mm.groups()
            nm = a1 or a2
            assert nm == p1 == p2 == p3 == p4 == dn, (ty, mm.groups())
            assert init[nm] == ('InitNone' if a1 else 'InitSomeNone'), (ty, nm)
            assert nm not in flds
            flds[nm] = (n, dt); order.append(nm)
        assert pos == len(arms), (ty, arms[pos:pos+300])
        assert order == list(init), (ty, order, list(init))
        rows = []
        for nm in order:
            ff, flo, fhi = fns['parse_' + nm]
            rows.append('mkfld %s %s %s %s %s %s' % (q(nm), flds[nm][0], flds[nm][1], init[nm], findict[nm], ba_field(nm, ff, ref)))
        return 'TStruct [\n    %s]' % ';\n    '.join(rows)
    die('type shape', ty, b)

# ---------------------------------------------------------------- bit packed
CSIG = r'pub fn \w+\(input:\(&\[u8\],usize\) ?\)->S2ProtoResult<\(&\[u8\],usize\),(?:.*?)>\{(.*)\}'

def bp_elem(call, ref):
    if call == 'take_unaligned_byte': return 'BByte'
    if call == 'parse_bool': return 'BBool'
    if call == 'take_fourcc': return 'BFourcc'
    if call == 'take_null': return 'BNull'
    assert call.endswith('::parse'), call
    return ref(call[:-7])

def bp_field(name, fn, ref):
    b = body(fn, CSIG); F = re.escape(name)
    m = re.fullmatch(r'let\(tail,%s\)=(\w+(?:::parse)?)\(input\)\?;Ok\(\(tail,%s\)\)' % (F, F), b)
    if m: return bp_elem(m.group(1), ref)
    m = re.fullmatch(r'let\(tail,%s\)=parse_packed_int\(input,(-?\d+),(\d+)usize\)\?;Ok\(\(tail,%s\)\)' % (F, F), b)
    if m: return '(BInt %s %s)' % m.groups()
    m = re.fullmatch(r'let\(tail,is_provided\):\(\(&\[u8\],usize\),bool\)=parse_bool\(input\)\?;let\(tail,%s\)=if is_provided\{(.*)\}else\{\(tail,None\)\};Ok\(\(tail,%s\)\)' % (F, F), b)
    if m:
        inner = m.group(1)
        x = re.fullmatch(r'let\(tail,res\)=(\w+(?:::parse)?)\((tail|input)\)\?;\(tail,Some\(res\)\)', inner)
        if x: return '(%s %s)' % ('BOpt' if x.group(2) == 'tail' else 'BOptReread', bp_elem(x.group(1), ref))
        x = re.fullmatch(r'let\(tail,res\)=parse_packed_int\((tail|input),(-?\d+),(\d+)usize\)\?;\(tail,Some\(res\)\)', inner)
        if x: return '(%s (BInt %s %s))' % ('BOpt' if x.group(1) == 'tail' else 'BOptReread', x.group(2), x.group(3))
        x = re.fullmatch(r'let\(mut tail,array_length\)=take_n_bits_into_i64\((tail|input),(\d+)\)\?;let array_length=array_length as usize;let max_initial_capacity=MAX_INITIAL_CAPACITY_BYTES / std::mem::size_of::<\w+>\(\)\.max\(1\);let mut array=Vec::with_capacity\(array_length\.min\(max_initial_capacity\)\);for _ in 0\.\.array_length\{let\(new_tail,data\)=(\w+(?:::parse)?)\(tail\)\?;tail=new_tail;array\.push\(data\);\}\(tail,Some\(array\)\)', inner)
        if x: return '(%s (BArray %s %s))' % ('BOpt' if x.group(1) == 'tail' else 'BOptReread', x.group(2), bp_elem(x.group(3), ref))
        die('bp opt', name, inner)
    m = re.fullmatch(r'let\(mut tail,array_length\)=take_n_bits_into_i64\(input,(\d+)\)\?;let array_length=array_length as usize;let mut array=vec!\[\];for _ in 0\.\.array_length\{let\(new_tail,data\)=(\w+(?:::parse)?)\(tail\)\?;tail=new_tail;array\.push\(data\);\}Ok\(\(tail,array\)\)', b)
    if m: return '(BArray %s %s)' % (m.group(1), bp_elem(m.group(2), ref))
    die('bp field', name, b)

def bp_type(ty, fns, ref):
    fn, lo, hi = fns['parse']
    b = body(fn, CSIG)
    m = re.fullmatch(r'let\(tail,value\)=(\w+)::parse\(input\)\?;Ok\(\(tail,Self\{value\}\)\)', b)
    if m: return ref(m.group(1))
    m = re.fullmatch(r'let\(tail,value\)=(parse_bool|take_fourcc|take_null)\(input\)\?;Ok\(\(tail,Self\{value\}\)\)', b)
    if m: return bp_elem(m.group(1), ref)
    m = re.fullmatch(r'let offset:i64=(-?\d+);let num_bits:usize=(\d+);let\(tail,value\)=parse_packed_int\(input,offset,num_bits\)\?;Ok\(\(tail,Self\{value\}\)\)', b)
    if m: return 'BInt (%s) %s' % m.groups()
    m = re.fullmatch(r'let str_size_num_bits:usize=(\d+);let\(tail,str_size\)=parse_packed_int\(input,0,str_size_num_bits\)\?;let\(tail,_\)=byte_align\(tail\)\?;let\(tail,value\)=take_bit_array\(tail,str_size as usize\*8usize\)\?;Ok\(\(tail,Self\{value\}\)\)', b)
    if m: return 'BBlob %s' % m.group(1)
    m = re.fullmatch(r'let\(tail,_\)=byte_align\(input\)\?;let num_bits:usize=40\*8;let\(tail,value\)=take_bit_array\(tail,num_bits\)\?;Ok\(\(tail,Self\{value\}\)\)', b)
    if m: return 'BFixedBlob 40'
    m = re.fullmatch(r'let bitarray_length_bits:usize=(\d+);let\(tail,bitarray_length\)=take_n_bits_into_i64\(input,bitarray_length_bits\)\?;let\(tail,value\)=(take_n_bits_into_i64|take_bit_array)\(tail,bitarray_length as usize\)\?;Ok\(\(tail,Self\{value\}\)\)', b)
    if m: return '%s %s' % ('BBitInt' if m.group(2) == 'take_n_bits_into_i64' else 'BBitArray', m.group(1))
    m = re.fullmatch(r'let array_length_num_bits:usize=(\d+);let\(mut tail,array_length\)=parse_packed_int\(input,0,array_length_num_bits\)\?;let array_length=array_length as usize;let max_initial_capacity=MAX_INITIAL_CAPACITY_BYTES / std::mem::size_of::<\w+>\(\)\.max\(1\);let mut array=Vec::with_capacity\(array_length\.min\(max_initial_capacity\)\);for _ in 0\.\.array_length\{let\(new_tail,data\)=(\w+(?:::parse)?)\(tail\)\?;tail=new_tail;array\.push\(data\);\}Ok\(\(tail,Self\{value:array\}\)\)', b)
    if m: return 'BArray %s %s' % (m.group(1), bp_elem(m.group(2), ref))
    m = re.fullmatch(r'(?:let offset=0i64;)?let num_bits:usize=(\d+);let\(tail,variant_tag\)=parse_packed_int\(input,(?:0|offset),num_bits\)\?;match variant_tag\{(.*)_=>\{Err\(S2ProtocolError::UnknownTag\(variant_tag\)\)\}\}', b)
    if m:
        nb, arms = m.groups(); items = []; pos = 0; kinds = set()
        for mm in re.compile(r'(\d+)=>\{(.*?)\}(?=\d+=>|$)').finditer(arms):
            assert mm.start() == pos; pos = mm.end()
            n, a = mm.groups()
            x = re.fullmatch(r'Ok\(\(tail,Self::(\w+)\)\)', a)
            if x: items.append('(%s, %s, BUnit)' % (n, q(x.group(1)))); kinds.add('enum'); continue
            x = re.fullmatch(r'let\(tail,res\)=(\w+(?:::parse)?)\(tail\)\?;Ok\(\(tail,Self::(\w+)\(res\)\)\)', a)
            if x: items.append('(%s, %s, %s)' % (n, q(x.group(2)), bp_elem(x.group(1), ref))); kinds.add('choice'); continue
            x = re.fullmatch(r'let\(tail,is_provided\):\(\(&\[u8\],usize\),bool\)=parse_bool\(tail\)\?;if is_provided\{let\(tail,res\)=(\w+(?:::parse)?)\(tail\)\?;Ok\(\(tail,Self::(\w+)\(Some\(res\)\)\)\)\}else\{Ok\(\(tail,Self::(\w+)\(None\)\)\)\}', a)
            if x:
                assert x.group(2) == x.group(3)
                items.append('(%s, %s, BOpt %s)' % (n, q(x.group(2)), bp_elem(x.group(1), ref))); kinds.add('choice'); continue
            die('bp arm', ty, a)
        assert pos == len(arms), (ty, arms[pos:])
        if kinds == {'enum'}:
            return 'BEnum %s [%s]' % (nb, '; '.join(i.replace(', BUnit)', ')') for i in items))
        return 'BChoice %s [\n    %s]' % (nb, ';\n    '.join(items))
    if re.fullmatch(r'let tail=input;Ok\(\(tail,Self\{\}\)\)', b): return 'BStruct []'
    m = re.fullmatch(r'let mut tail=input;((?:let mut \w+:[^;]*;)*)(.*?)(Ok\(\(tail,Self\{.*\} ?\)\))', b)
    if m:
        decls, fs, fin = m.groups()
        init = {}
        for d in re.findall(r'let mut (\w+):(.*?);', decls):
            x = re.fullmatch(r'(Option<.*>)=(None|Some\(None\))', d[1]); assert x, (ty, d)
            init[d[0]] = x.group(2)
        pos = 0; order = []
        for mm in re.compile(r'if (?:(\w+)\.is_none\(\)|let Some\(None\)=(\w+))\{let\(new_tail,parsed_(\w+)\)=Self::parse_(\w+)\(tail\)\?;tail=new_tail;(\w+)=Some\(parsed_(\w+)\);\}').finditer(fs):
            assert mm.start() == pos, (ty, fs[pos:mm.start()]); pos = mm.end()
            a1, a2, p1, p2, p3, p4 = mm.groups(); nm = a1 or a2
            assert nm == p1 == p2 == p3 == p4 and nm not in order
            assert init[nm] == ('None' if a1 else 'Some(None)')
            order.append(nm)
        assert pos == len(fs), (ty, fs[pos:])
        assert order == list(init), (ty, order, list(init))
        x = re.fullmatch(r'Ok\(\(tail,Self\{(.*)\} ?\)\)', fin)
        fins = []
        for part in re.split(r',(?=\w+:(?:ok_or|\w+\.))', x.group(1)):
            y = re.fullmatch(r'(\w+):ok_or_return_missing_field_err!\((\w+)\) ?', part) \
                or re.fullmatch(r'(\w+):(\w+)\.expect\("Missing \w+ from struct"\) ?', part) \
                or re.fullmatch(r'(\w+):(\w+)\.unwrap_or\(CUserName\{value:b""\[\.\.\]\.to_vec\(\) ?\}\) ?', part) \
                or re.fullmatch(r'(\w+):(\w+)\.unwrap_or\(b""\[\.\.\]\.to_vec\(\)\) ?', part)
            assert y and y.group(1) == y.group(2), (ty, part)
            fins.append(y.group(1))
        assert fins == order, (ty, fins, order)
        rows = []
        for nm in order:
            ff, flo, fhi = fns['parse_' + nm]
            rows.append('(%s, %s)' % (q(nm), bp_field(nm, ff, ref)))
        return 'BStruct [\n    %s]' % ';\n    '.join(rows)
    die('bp type', ty, b)

def emit(mod, prefix, fallback, conv, vty, cite, out, rows):
    done = {}; names = []
    def ref(t):
        if t in mod.impls and 'parse' in mod.impls[t]:
            go(t); return prefix + t
        if fallback: 
            assert t in mod.imports, (t, 'not imported'); return fallback + t
        die('unknown type', t)
    def go(t):
        if t in done:
            assert done[t], ('recursive', t); return
        done[t] = False
        fns = mod.impls[t]
        d = conv(t, fns, ref)
        lo = fns['parse'][1]; hi = fns['parse'][2]
        for k, v in fns.items():
            if k.startswith('parse_m_') or re.match(r'parse_[a-z]+$', k): lo = min(lo, v[1]); hi = max(hi, v[2])
        out.append('(** Model of %s:%d-%d [%s::parse] and its field parsers. *)\nDefinition %s%s : %s :=\n  %s.\n' % (cite, lo, hi, t, prefix, t, vty, d))
        names.append(t); done[t] = True
    for t, fns in mod.impls.items():
        if 'parse' in fns: go(t)
    rows += names

def main():
    p87 = REPO + 'protocol87702/mod.rs'; p75 = REPO + 'protocol75689/mod.rs'
    L = open(p87).read().split('\n')
    split = next(i for i, l in enumerate(L) if l.startswith('pub mod bit_packed'))
    ba = Mod(p87, 0, split); bp = Mod(p87, split, len(L))
    L75 = open(p75).read().split('\n')
    s75 = next(i for i, l in enumerate(L75) if l.startswith('pub mod bit_packed'))
    ba75 = Mod(p75, 0, s75); bp75 = Mod(p75, s75, len(L75))
    assert not ba75.impls
    hdr = '(* Generated by tools/extract_proto.py from /repo; do not edit. *)\n'
    out = [hdr + '(** * Descriptors of the byte-aligned types of protocol 87702\n\n    Protocol 75689 re-exports all of them (src/versions/protocol75689/mod.rs:2-30). *)\nFrom Verif Require Import Base Types.\n#[local] Open Scope string_scope.\n#[local] Open Scope Z_scope.\n']
    names = []
    emit(ba, 'ba_', None, ba_type, 'vty', 'src/versions/protocol87702/mod.rs', out, names)
    missing = [t for t in ba75.imports if t not in names]
    assert not missing, missing
    out.append('(** All of them, with their names. *)\nDefinition ba_all : list (string * vty) := [\n  %s].\n' % ';\n  '.join('("%s", ba_%s)' % (t, t) for t in names))
    open(OUT + '/ByteTypes.v', 'w').write('\n'.join(out))
    out = [hdr + '(** * Descriptors of the bit-packed types of protocols 87702 and 75689\n\n    A tuple struct with the single field [value] is identified with that field.  *)\nFrom Verif Require Import Base Types.\n#[local] Open Scope string_scope.\n#[local] Open Scope Z_scope.\n']
    n87 = []; n75 = []
    emit(bp, 'bp_', None, bp_type, 'bty', 'src/versions/protocol87702/mod.rs', out, n87)
    missing = [t for t in bp75.imports if t not in n87]
    assert not missing, missing
    out.append('(** ** Protocol 75689: the types it does not take over from 87702 *)\n')
    emit(bp75, 'bp75_', 'bp_', bp_type, 'bty', 'src/versions/protocol75689/mod.rs', out, n75)
    out.append('(** All types of protocol 87702, with their names. *)\nDefinition bp_all : list (string * bty) := [\n  %s].\n' % ';\n  '.join('("%s", bp_%s)' % (t, t) for t in n87))
    out.append('(** The types protocol 75689 defines itself. *)\nDefinition bp75_all : list (string * bty) := [\n  %s].\n' % ';\n  '.join('("%s", bp75_%s)' % (t, t) for t in n75))
    open(OUT + '/BitTypes.v', 'w').write('\n'.join(out))
    print(len(names), 'byte-aligned', len(n87), 'bit-packed', len(n75), 'of 75689')

main()
