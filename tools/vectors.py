#!/usr/bin/env python3
"""Write rocq/theories/VectorsRepo*.v: a selection of the vectors of /repo/test/testvectors,
replayed on the model of the type that test/test_vectors.cc uses for the file."""
import os, re
V = '/repo/test/testvectors/'
OUT = os.path.join(os.path.dirname(os.path.abspath(__file__)), '..', 'rocq', 'theories')
P128 = 'mem_st 2 144'
HASH, XOF = 'h', 'x'
# file -> (kind, type, memory, {C, Salt, Key -> parameter})
B2 = {'C': 'B2Pers', 'Salt': 'B2Salt', 'Key': 'B2Key'}
SK = {'C': 'SkPers', 'Key': 'SkKey'}
def plain(t, n): return (HASH, t, 'mst 12 %d' % n, {})
T = {}
for f, t, n in [('md5', 'md5_type', 64), ('sha1', 'sha1_type', 64), ('sha224', 'sha224_type', 64),
                ('sha256', 'sha256_type', 64), ('sha384', 'sha384_type', 128), ('sm3', 'sm3_type', 64),
                ('sha512', '(sha512_type 512)', 128), ('sha512_224', '(sha512_type 224)', 128),
                ('sha512_256', '(sha512_type 256)', 128), ('whirlpool', 'whirlpool_type', 64),
                ('ascon_hash256', 'ascon_hash_type', 64)]:
    T[f] = plain(t, n)
for hs in (224, 256, 384, 512):
    T['sha3_%d' % hs] = (HASH, '(sha3_type %d)' % hs, 'mst 25 144', {})
    T['blake%d' % hs] = (HASH, '(blake_type %d)' % hs, 'mst 12 128', {'Salt': 'BlSalt'})
    T['groestl%d' % hs] = plain('(groestl_type %d)' % hs, 128)
    T['jh%d' % hs] = plain('(jh_type %d)' % hs, 64)
    T['echo%d' % hs] = (HASH, '(echo_type %d)' % hs, 'mst 9 5', {'Salt': 'EcSalt'})
    T['lsh512_%d' % hs] = plain('(lsh_type 64 %d)' % hs, 256)
T['blake256salt'] = T['blake256']; T['blake384salt'] = T['blake384']
for hs in (224, 256): T['lsh256_%d' % hs] = plain('(lsh_type 32 %d)' % hs, 128)
for hs in (256, 512):
    T['kupyna%d' % hs] = plain('(kupyna_type %d)' % hs, 128)
    T['streebog%d' % hs] = plain('(streebog_type %d)' % hs, 64)
for hs in (256, 384): T['esch%d' % hs] = (HASH, '(esch_type %d)' % hs, 'mst 16 128', {})
for hs in (128, 160, 224, 256): T['blake2s_%d' % hs] = (HASH, '(blake2_type 32 BHash %d)' % hs, '(mst 9 64, 5)', B2)
for hs in (128, 160, 224, 256, 384, 512): T['blake2b_%d' % hs] = (HASH, '(blake2_type 64 BHash %d)' % hs, '(mst 9 128, 5)', B2)
for hs in (256, 512, 2040, 2056): T['blake2xb_%d' % hs] = (HASH, '(blake2_type 64 BXhash %d)' % hs, '(mst 9 128, 5)', B2)
T['blake2xb_2056param'] = T['blake2xb_2056']
for hs in (256, 2056): T['blake2xs_%d' % hs] = (HASH, '(blake2_type 32 BXhash %d)' % hs, '(mst 9 64, 5)', B2)
T['blake2xs_2056param'] = T['blake2xs_2056']
T['blake2sp_256'] = (HASH, '(blake2p_type 32 256)', 'mtree 64 8', B2)
T['blake2bp_512'] = (HASH, '(blake2p_type 64 512)', 'mtree 128 4', B2)
for nw, l in ((4, (128, 160, 224, 256, 2056)), (8, (128, 160, 224, 256, 384, 512, 2056)), (16, (256, 384, 512, 1024, 2056))):
    for hs in l:
        T['skein%d_%d' % (64 * nw, hs)] = (HASH, '(skein_type %d %d)' % (nw, hs), '(mst %d %d, junk 3, true)' % (2 + nw, 8 * nw), SK)
for nw in (4, 8):
    T['skein%d_xof' % (64 * nw)] = (XOF, '(skein_xof_type %d)' % nw, '(mst %d %d, junk 3, true)' % (2 + nw, 8 * nw), SK)
T['ascon_xof128'] = (XOF, 'ascon_xof_type', 'mst 5 64', {})
T['ascon_cxof128'] = (XOF, 'ascon_cxof_type', 'mst 5 64', {'C': 'AsCustomization'})
T['blake2xb_xof'] = (XOF, '(blake2x_xof_type 64)', '(mst 9 128, 5)', B2)
T['blake2xs_xof'] = (XOF, '(blake2x_xof_type 32)', '(mst 9 64, 5)', B2)
SH = '(mst 25 168, true, 9)'
T['shake128'] = (XOF, '(shake_type 128)', SH, {}); T['shake256'] = (XOF, '(shake_type 256)', SH, {})
T['cshake256'] = (XOF, '(cshake_type 256)', SH, {'C': 'CsCustomization'})
K = {'C': 'KmCustomization', 'Key': 'KmKey'}
T['kmac128'] = (HASH, '(kmac_type 128 256)', '(mst 25 168, true, 9, true)', K)
T['kmac256'] = (HASH, '(kmac_type 256 512)', '(mst 25 168, true, 9, true)', K)
KM = '(mkk12m (mst 25 168, true, 9) (mst 25 168, true, 9) (junk (N.to_nat 8192)) 7 7 7 true)'
T['k12'] = (XOF, '(k12_type 128 12)', KM, {'C': 'K12Customization'})
T['kt256'] = (XOF, '(k12_type 256 12)', KM, {'C': 'K12Customization'})
WANT = [0, 1, 8, 55, 56, 63, 64, 65, 111, 112, 127, 128, 129, 135, 136, 144, 168, 200, 255]
SLOW = ('echo', 'streebog', 'kupyna', 'groestl', 'whirlpool', 'jh', 'skein1024')
GROUPS = {'A': ('md5', 'sha1', 'sha2', 'sha384', 'sha512', 'sm3'), 'B': ('sha3_', 'shake', 'cshake', 'kmac', 'k12', 'kt', 'ascon', 'esch'),
          'C': ('blake',), 'D': ('skein', 'lsh'), 'E': ('echo', 'groestl', 'kupyna', 'whirlpool'), 'F': ('jh', 'streebog')}
def parse(f):
    """The loop of test_vectors.hpp:139-185: a list of (settings, pieces, digest)."""
    res, sets, pieces, nbytes = [], [], [], 0
    for line in open(V + f + '.txt', errors='replace'):
        if '=' not in line: continue
        k, v = line.split('=', 1); k = k.strip(); v = v.strip()
        if k == 'Bytes': nbytes = int(v)
        if k in ('C', 'Salt', 'Key'): sets.append((k, v))
        if k == 'Msg':
            b = v.lower()
            if not nbytes: pieces.append(b)
            else:
                while nbytes:
                    n = min(len(b) // 2, nbytes); pieces.append(b[:2 * n]); nbytes -= n
        if k == 'MD':
            res.append((sets, pieces, v.lower())); sets, pieces = [], []
    return res
def choose(f, vs):
    want = list(WANT)
    if f.startswith(SLOW): want = [0, 1, 8, 55, 56, 63, 64, 111, 112, 119, 120, 128, 200, 255]
    budget = 1500
    if f in ('k12', 'kt256'): want, budget = [0, 1, 17, 289, 4913, 83521], 120000
    out, n, have = [], 0, set()
    for i, (s, p, md) in enumerate(vs):
        l = sum(len(x) // 2 for x in p)
        ok = len(vs) <= 12 or l in want
        if f == 'ascon_cxof128': ok = i % 137 == 0
        elif ok and len(vs) > 12 and l in have and not s: ok = False
        if not ok or n + l > budget or len(md) > 21000: continue
        have.add(l); n += l; out.append(i)
    return out
def emit(f):
    kind, ty, mem, par = T[f]
    vs = parse(f); idx = choose(f, vs)
    # settings are sticky: those of skipped vectors come first
    rows, pend, last = [], [], -1
    for i in idx:
        for j in range(last + 1, i + 1): pend += [(par[k], v) for k, v in vs[j][0] if k in par]
        last = i
        seen = {}
        for k, v in pend: seen[k] = v
        s = '; '.join('(%s, "%s")' % kv for kv in seen.items()); pend = []
        m = '; '.join('"%s"' % p for p in vs[i][1])
        rows.append('   ([%s], [%s],\n    "%s")' % (s, m, vs[i][2]))
    fn = 'replay' if kind == HASH else 'xreplay'
    return '(** test/testvectors/%s.txt, %d of %d vectors. *)\nDefinition repo_%s := Eval vm_compute in %s %s (%s) [\n%s].\nExample repo_%s_ok : repo_%s = true. Proof. reflexivity. Qed.\n' % (
        f, len(idx), len(vs), f, fn, ty, mem, ';\n'.join(rows), f, f)
HEAD = '''(** Known answers (tests, not proofs): vectors of test/testvectors replayed on the models of
    the types that test/test_vectors.cc uses; written by tools/vectors.py. [Eval] runs them
    when the file is built. *)
From Coq Require Import String.
From Verif Require Import Base Hasher HasherSpec MdState Library LibraryTypes VecUtil VecReplay
  Md5 Sha1 Sha2 Sm3 Whirlpool Sha3 Shake Kmac K12 Ascon Esch Blake Blake2 Blake2p Groestl Kupyna Streebog Jh Lsh Skein Echo.
Local Open Scope string_scope.
Local Open Scope N_scope.

'''
total = 0
left = set(x[:-4] for x in os.listdir(V)) - set(T)
assert not left, left
for g, pre in GROUPS.items():
    fs = sorted(f for f in T if f.startswith(pre))
    with open(os.path.join(OUT, 'VectorsRepo%s.v' % g), 'w') as o:
        o.write(HEAD + '\n'.join(emit(f) for f in fs))
    total += len(fs)
assert total == len(T), (total, len(T))

# test/test.cc: the compare() calls of basic_self_test
src = open('/repo/test/test.cc').read()
src = src[src.index('void basic_self_test'):]
var = {'ts': re.search(r'ts = "([^"]*)"', src).group(1).encode(), 'hex': re.search(r'hex = "([^"]*)"', src).group(1).encode(),
       'key': b'\0\1'}
def literal(t):
    b = b''
    for m in re.findall(r'"((?:[^"\\]|\\.)*)"', t): b += m.encode().decode('unicode_escape').encode('latin1')
    return b
def argument(t):
    t = t.strip()
    m = re.match(r'(\w+)(?:\s*,\s*(\w+).*)?$', t, re.S)
    if m and m.group(1) in var:
        b, n = var[m.group(1)], m.group(2)
    else:
        b = literal(t); m = re.search(r',\s*(\d+)\s*$', t); n = m.group(1) if m else None
    return b[:int(n)] if n and n.isdigit() else b
def of_name(name, static, size):
    st = '_static' if static else ''
    m = re.match(r'(lsh|skein)(\d+)(_xof)?$', name)
    if m:
        b = int(m.group(2))
        if m.group(1) == 'lsh': return HASH, '(lsh%s_type %d %s)' % (st, b // 8, size), 'mst 12 %d' % (b // 2), {}
        nw = b // 64; mem = '(mst %d %d, junk 3, true)' % (2 + nw, 8 * nw)
        par = {'set_personalization': 'SkPers', 'set_nonce': 'SkNonce', 'set_key': 'SkKey'}
        if m.group(3): return XOF, '(skein_xof_type %d)' % nw, mem, par
        return HASH, '(skein%s_type %d %s)' % (st, nw, size), mem, par
    par = {'set_personalization': 'B2Pers', 'set_salt': 'B2Salt', 'set_key': 'B2Key'}
    m = re.match(r'blake2(x?)([bs])(p?)(_xof)?$', name)
    if m:
        w = 64 if m.group(2) == 'b' else 32; size = size or str(8 * w); mem = '(mst 9 %d, 5)' % (2 * w)
        if m.group(4): return XOF, '(blake2x_xof_type %d)' % w, mem, par
        if m.group(3): return HASH, '(blake2p%s_type %d %s)' % (st, w, size), 'mtree %d %d' % (2 * w, 4 if w == 64 else 8), par
        return HASH, '(blake2%s_type %d %s %s)' % (st, w, 'BXhash' if m.group(1) else 'BHash', size), mem, par
    m = re.match(r'kmac(\d+)(_xof)?$', name)
    if m:
        mem = '(mst 25 168, true, 9, true)'; par = {'set_customization': 'KmCustomization', 'set_key': 'KmKey'}
        if m.group(2): return XOF, '(kmacxof_type %s)' % m.group(1), mem, par
        return HASH, '(kmac%s_type %s %s)' % (st, m.group(1), size), mem, par
    if name.startswith('shake'): return XOF, '(shake_type %s)' % name[5:], SH, {}
    if name in ('k12', 'm14'): return XOF, '(k12_type %s)' % ('128 12' if name == 'k12' else '256 14'), KM, {}
    if name == 'sha512': size = size or '512'
    if name in ('sha256', 'sm3', 'whirlpool'): return HASH, name + '_type', 'mst 12 64', {}
    mem = {'sha512': 'mst 8 128', 'sha3': 'mst 25 144', 'esch': 'mst 16 128', 'blake': 'mst 12 128', 'echo': 'mst 9 5'}
    mem = mem.get(name, 'mst 12 %d' % (64 if name in ('jh', 'streebog') else 128))
    return HASH, '(%s%s_type %s)' % (name, st, size), mem, {}
calls = re.findall(r'compare\("[^"]*",\s*(digestpp::.*?),\s*((?:"[0-9a-f]*"\s*)+)\);', src, re.S)
assert len(calls) == len(re.findall('compare\\(', src)), (len(calls), src.count('compare('))
out = HEAD.replace('vectors of test/testvectors replayed on the models of\n    the types that test/test_vectors.cc uses',
                   'the calls of compare() in basic_self_test of\n    test/test.cc')
for i, (e, md) in enumerate(calls):
    m = re.match(r'digestpp::(static_size::)?(\w+?)(?:<(\d+)>)?\((\d*)\)', e)
    kind, ty, mem, par = of_name(m.group(2), m.group(1), m.group(3) or m.group(4))
    rest = e[m.end():]; sets, msg = [], []
    for f, a in re.findall(r'\.(\w+)\(((?:[^()"]|"(?:[^"\\]|\\.)*"|\([^()]*\))*)\)', rest):
        if f == 'absorb': msg.append('"%s"' % argument(a).hex())
        elif f.startswith('set_'): sets.append('(%s, "%s")' % (par[f], argument(a).hex()))
        else: assert (f == 'hexdigest') == (kind == HASH), (f, kind)
    out += '(** %s *)\nDefinition self_%d := Eval vm_compute in %s %s (%s)\n  [([%s], [%s], "%s")].\nExample self_%d_ok : self_%d = true. Proof. reflexivity. Qed.\n' % (
        m.group(0), i, 'replay' if kind == HASH else 'xreplay', ty, mem, '; '.join(sets), '; '.join(msg), ''.join(re.findall('"(.*?)"', md)), i, i)
with open(os.path.join(OUT, 'VectorsSelf.v'), 'w') as o: o.write(out)
