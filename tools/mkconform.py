#!/usr/bin/env python3
"""Translates the unit tests of /repo into checks on the model: every #[test] and #[rstest]
function becomes, per case, a Coq term of type [outcome unit] that is [Ok tt] if all of its
assertions hold of the model.  Writes /verif/rocq/theories/Conform*.v and CONFORMANCE.md."""
import sys, re, glob, os, itertools, json
sys.path.insert(0, os.path.dirname(os.path.abspath(__file__)))
from rustparse import *

SRC = '/repo/src/'
MATTERISH = ['TestMatter', 'Verfer', 'Diger', 'Saider', 'Number', 'Seqner', 'Dater', 'Bexter', 'Pather', 'Prefixer']
INNER = {'Cigar': 'cg_matter', 'Signer': 'sn_matter', 'Salter': 'sl_matter'}
OBJ = MATTERISH + list(INNER) + ['TestIndexer', 'Siger', 'Counter', 'Tholder', 'Serder', 'Creder', 'TestSadder']

def consts(path):
    return dict(re.findall(r'pub const (\w+): &str = "([^"]*)"', open(SRC + path).read()))
CODEX = {m: consts('core/%s/tables.rs' % m) for m in ('matter', 'indexer', 'counter')}
COMMON = {}
for m in re.finditer(r'pub mod (\w+) \{(.*?)\n\}', open(SRC + 'core/common.rs').read(), re.S):
    COMMON[m.group(1)] = dict(re.findall(r'pub const (\w+): &str = "([^"]*)"', m.group(2)))
NUMDEX = {'Short': 'M', 'Long': '0H', 'Big': 'N', 'Huge': '0A'}

# new_with_* functions, taken from the source
WITH = {}
for f in ('verfer diger cigar siger signer salter number seqner dater bexter pather saider prefixer tholder serder creder').split():
    s = open(SRC + 'core/%s.rs' % f).read()
    for m in re.finditer(r'pub fn (new_with_\w+)\(([^)]*)\) -> Result<Self> \{\s*Self::new\(([^{}]*?)\)\s*\}', s, re.S):
        WITH[(f.capitalize(), m.group(1))] = ([x.split(':')[0].strip() for x in m.group(2).split(',') if x.strip()], [x.strip() for x in m.group(3).split(',') if x.strip()])

def lit(b):
    if all(32 <= c < 127 for c in b): return '(s2b "%s")' % b.decode().replace('"', '""')
    return '[' + '; '.join(str(c) for c in b) + ']'

class E:
    """emits one test"""
    def __init__(self, file, uses): self.n, self.env, self.h, self.file, self.uses, self.left = 0, {}, [], file, uses, []
    def fresh(self): self.n += 1; return 'x%d' % self.n
    def hoist(self, t):
        v = self.fresh(); self.h.append((v, t)); return v
    def unwrap(self, t, ty):
        if isinstance(ty, tuple) and ty[0] in ('res', 'opt'): return self.hoist('unw (%s)' % t), ty[1]
        raise Skip('unwrap of %s' % (ty,))
    def lit_path(self, path):
        p = [x for x in path if x not in ('crate', 'core', 'tables', 'super', 'self', 'common', 'common_')]
        last = p[-1]
        if len(p) >= 2 and p[-2] == 'Codex':
            mod = p[-3] if len(p) >= 3 else self.uses.get('Codex', 'matter')
            mod = self.uses.get(mod, mod)
            if mod == 'number' or self.file.endswith('number.rs') and last in NUMDEX and 'tables' in path: return lit(NUMDEX[last].encode()), 'str'
            c = CODEX.get(mod, {})
            if last in c: return lit(c[last].encode()), 'str'
            raise Skip('constant %s' % '::'.join(path))
        if len(p) >= 2 and p[-2] in COMMON and last in COMMON[p[-2]]: return lit(COMMON[p[-2]][last].encode()), 'str'
        if len(p) == 2 and last == 'MAX' and p[0] in ('u8', 'u16', 'u32', 'u64', 'u128', 'i64', 'usize'):
            w = 64 if p[0] == 'usize' else int(p[0][1:]); return str(2 ** (w - (p[0][0] == 'i')) - 1), 'int'
        for sub in ('SigCodex', 'CurrentSigCodex', 'BothSigCodex'):
            if len(p) >= 2 and p[-2] == sub and last in CODEX['indexer']: return lit(CODEX['indexer'][last].encode()), 'str'
        if last == 'VERSION_FULL_SIZE': return 'version_full_size', 'int'
        if last == 'MINIMUM_SNIFF_SIZE': return 'minimum_sniff_size', 'int'
        if last == 'null' or p[-2:] == ['Value', 'Null']: return 'VNull', 'Value'
        if p[-2:] == ['Tierage', 'min']: return '(s2b "min")', 'str'
        if last == 'CURRENT_VERSION': return 'current_version', 'version'
        raise Skip('path %s' % '::'.join(path))
    def opt(self, e):
        return self.x(e)
    def x(self, e, want=None):
        """(text, type)"""
        k = e[0]
        if k == 'int': return str(e[1]), 'int'
        if k == 'float': return lit(e[1].encode()), 'float'
        if k in ('str', 'bytes'): return lit(e[1]), k
        if k == 'neg':
            t, ty = self.x(e[1])
            if ty == 'float': return lit(b'-' + e[1][1].encode()), 'float'
            return '(- %s)%%Z' % t, 'i64'
        if k == 'not': t, ty = self.x(e[1]); return '(negb %s)' % t, 'bool'
        if k == 'array':
            xs = [self.x(a) for a in e[1]]; ty = xs[0][1] if xs else 'any'
            if ty == 'int' : return '[' + '; '.join(a for a, _ in xs) + ']', 'bytes'
            return '[' + '; '.join(a for a, _ in xs) + ']', ('vec', ty)
        if k == 'repeat':
            a, ty = self.x(e[1]); n, _ = self.x(e[2])
            def ev(y): return y[1] if y[0] == 'int' else ev(y[2]) * ev(y[3]) if y[:2] == ('bin', '*') else ev(y[2]) + ev(y[3]) if y[:2] == ('bin', '+') else 0
            if ev(e[2]) > 1000000: raise Skip('array of %d entries' % ev(e[2]))
            return '(repeat %s (N.to_nat %s))' % (a, n), 'bytes' if ty == 'int' else ('vec', ty)
        if k == 'tuple':
            xs = [self.x(a) for a in e[1]]; return '(' + ', '.join(a for a, _ in xs) + ')', ('tup', [t for _, t in xs])
        if k == 'path':
            p = e[1]
            if len(p) == 1:
                if p[0] in self.env: return self.env[p[0]]
                if p[0] == 'None': return 'None', ('opt', 'any')
                if p[0] in ('true', 'false'): return p[0], 'bool'
            return self.lit_path(p)
        if k == 'struct': return self.struct(e)
        if k == 'cast':
            t, ty = self.x(e[1])
            if e[2] == 'u8': return '(%s mod 256)' % t, 'int'
            return t, ty
        if k == 'bin': return self.binary(e)
        if k == 'index': return self.index(e)
        if k == 'dat': return self.dat(e[1]), 'Value'
        if k == 'dobj' or k == 'darr': return self.dat(e), 'Value'
        if k == 'call': return self.call(e)
        if k == 'method': return self.method(e)
        if k == 'field': return self.field(e)
        if k == 'macro': return self.macro(e)
        if k == 'if':
            c, _ = self.x(e[1])
            n = len(self.h); (s1, a), (s2, b) = e[2][1:], e[3][1:] if e[3] else ([], None)
            if s1 or s2 or a is None or b is None: raise Skip('if statement')
            a, ty = self.x(a); b, _ = self.x(b)
            if len(self.h) != n: raise Skip('unwrap in branch')
            return '(if %s then %s else %s)' % (c, a, b), ty
        if k == 'block' and not e[1] and e[2]: return self.x(e[2])
        raise Skip('expression %s' % k)
    def struct(self, e):
        n = e[1][-1]; fs = dict((a, self.x(b)[0]) for a, b in e[2] if a != '..')
        if n == 'TestMatter' and any(a == '..' for a, _ in e[2]): fs = dict({'code': '(s2b "E")', 'size': '0', 'raw': '[]'}, **fs)
        if n == 'Version': return '(Ver %s %s)' % (fs['major'], fs['minor']), 'version'
        if n == 'TestMatter': return '(Mat %s %s %s)' % (fs['code'], fs['size'], fs['raw']), 'TestMatter'
        if n == 'TestIndexer': return '(Idx %s %s %s %s)' % (fs['code'], fs['raw'], fs['index'], fs['ondex']), 'TestIndexer'
        if n in MATTERISH and set(fs) == {'code', 'size', 'raw'}: return '(Mat %s %s %s)' % (fs['code'], fs['size'], fs['raw']), n
        if n == 'Siger': return '(Sg (Idx %s %s %s %s) %s)' % (fs['code'], fs['raw'], fs['index'], fs['ondex'], fs['verfer']), n
        if n == 'Cigar': return '(Cig (Mat %s %s %s) %s)' % (fs['code'], fs['size'], fs['raw'], fs['verfer']), n
        if n == 'Counter': return '(Ctr %s %s)' % (fs['code'], fs['count']), n
        raise Skip('struct %s' % n)
    def binary(self, e):
        op = e[1]; (a, ta), (b, tb) = self.x(e[2]), self.x(e[3])
        if op in ('==', '!='):
            t = self.eq(a, ta, b, tb); return (t if op == '==' else '(negb %s)' % t), 'bool'
        if op in ('&&', '||'): return '(%s %s %s)' % (a, op, b), 'bool'
        z = 'i64' in (ta, tb); sc = '%Z' if z else '%N'
        if op in ('<', '<='): return '(%s %s? %s)%s' % (a, op, b, sc), 'bool'
        if op in ('>', '>='): return '(%s %s? %s)%s' % (b, op.replace('>', '<'), a, sc), 'bool'
        fn = {'<<': 'N.shiftl', '>>': 'N.shiftr', '|': 'N.lor', '&': 'N.land'}.get(op)
        if fn: return '(%s %s %s)' % (fn, a, b), 'int'
        if op == '^': return '(N.lxor %s %s)' % (a, b), 'int'
        if op == '+' and ta in ('str',): return '(%s ++ %s)' % (a, b), 'str'
        return '(%s %s %s)%s' % (a, {'+': '+', '-': '-', '*': '*', '/': '/', '%': 'mod'}[op], b, sc), 'i64' if z else 'int'
    def eq(self, a, ta, b, tb):
        if 'i64' in (ta, tb): a, b = '(%s)%%Z' % a, '(%s)%%Z' % b
        if ta == 'Value' and tb != 'Value': b = '(to_data %s)' % b
        if tb == 'Value' and ta != 'Value': a = '(to_data %s)' % a
        return '(same %s %s)' % (a, b)
    def index(self, e):
        t, ty = self.x(e[1]); i = e[2]
        if i[0] == 'range':
            lo = self.x(i[1])[0] if i[1] else None; hi = self.x(i[2])[0] if i[2] else None
            r = t
            if hi: r = '(take %s %s)' % (hi, r)
            if lo: r = '(drop %s %s)' % (lo, r)
            return r, ty
        it, ity = self.x(i)
        if ty == 'Value':
            return self.hoist('unw (%s %s %s)' % ('vget' if ity == 'str' else 'vnth', t, it)), 'Value'
        if ty == 'map': return self.hoist('unw (map_get %s %s)' % (it, t)), 'Value'
        el = 'int' if ty in ('bytes', 'str') else ty[1]
        return self.hoist('unw (nth_error %s (N.to_nat %s))' % (t, it)), el
    def dat(self, e):
        if e[0] == 'dobj': return '(VObj (%s))' % ' '.join(['fold_left (fun o e => map_insert (fst e) (snd e) o) [%s] []' % '; '.join('(%s, %s)' % (self.x(k)[0], self.dat(v)) for k, v in e[1])]) if e[1] else '(VObj [])'
        if e[0] == 'darr': return '(VArr [%s])' % '; '.join(self.dat(a) for a in e[1])
        t, ty = self.x(e)
        if ty == 'Value': return t
        if ty in ('str', 'bytes'): return '(VStr %s)' % t
        if ty == 'int': return '(VInt (Z.of_N %s))' % t
        if ty == 'i64': return '(VInt %s)' % t
        if ty == 'bool': return '(VBool %s)' % t
        if ty == 'float': return '(VFloat %s)' % t
        if ty == ('vec', 'Value') or ty == ('vec', 'any'): return '(VArr %s)' % t
        if ty == ('vec', 'str'): return '(VArr (map VStr %s))' % t
        if ty == 'map': return '(VObj %s)' % t
        raise Skip('dat of %s' % (ty,))
    def args(self, xs): return ' '.join('(%s)' % self.x(a)[0] for a in xs)
    def call(self, e):
        f = e[1]
        if f[0] != 'path': raise Skip('call')
        p = f[1]; a = e[2]
        if p == ['Some']: t, ty = self.x(a[0]); return '(Some %s)' % t, ('opt', ty)
        if p == ['Ok']: raise Skip('Ok')
        if p in (['max'], ['cmp', 'max'], ['std', 'cmp', 'max']): return '(N.max %s)' % self.args(a), 'int'
        if p in (['min'], ['cmp', 'min'], ['std', 'cmp', 'min']): return '(N.min %s)' % self.args(a), 'int'
        fn = p[-1]; q = p[-2] if len(p) > 1 else self.uses.get(fn)
        if q in ('Matter', 'Indexer') and self.want in OBJ: p = ['<%s>' % q, self.want, fn]; q = self.want
        if p[0] in ('<Matter>', '<Indexer>') and q in MATTERISH + ['TestIndexer']: return '%s_%s %s' % (p[0][1:-1].lower(), fn, self.args(a)), ('res', q)
        q0 = self.uses.get(q, q)
        if q in OBJ: return self.ctor(q, fn, a)
        if q == 'Value' and fn == 'from': return self.dat(a[0]), 'Value'
        if q == 'String' and fn == 'from_utf8': return 'from_utf8 %s' % self.args(a), ('res', 'str')
        if q == 'String' and fn in ('from', ): return self.x(a[0])
        if q in ('IndexMap', 'HashMap') and fn == 'new': return '([] : list (bytes * data))', 'map'
        if q in ('Vec', 'String') and fn == 'new': return '[]', ('vec', 'any')
        if q == 'util' or self.file.endswith('util.rs'):
            ty = {'b64_char_to_index': 'int', 'b64_index_to_char': 'int', 'b64_to_u32': 'int', 'b64_to_u64': 'int', 'u32_to_b64': 'str', 'u64_to_b64': 'str', 'code_b2_to_b64': 'str', 'code_b64_to_b2': 'bytes', 'nab_sextets': 'bytes'}.get(fn)
            if ty: return '%s %s' % (fn, self.args(a)), ('res', ty)
        if q == 'hash' and fn == 'digest': return 'digest %s' % self.args(a), ('res', 'bytes')
        if q == 'sign': 
            if fn == 'public_key': return 'sign_public_key %s' % self.args(a), ('res', 'bytes')
            if fn == 'generate': return 'sign_generate %s 0' % self.args(a), ('res', 'bytes')
            if fn == 'sign': return 'sign_sign (%s) 0 %s' % (self.x(a[0])[0], self.args(a[1:])), ('res', 'bytes')
            if fn == 'verify': return 'sign_verify %s' % self.args(a), ('res', 'bool')
        if fn in ('sizage', 'hardage', 'bardage', 'raw_size'):
            pre = {'matter': 'm', 'counter': 'c', 'indexer': 'i'}.get(q0) or {'matter': 'm', 'counter': 'c', 'indexer': 'i'}.get(self.file.split('/')[1])
            if pre:
                nm = TABLE[(pre, fn)]
                if nm: return '%s %s' % (nm, self.args(a)), ('res', pre + 'sizage' if fn == 'sizage' else 'int')
        if fn in ('versify', 'deversify', 'sizeify', 'sniff', 'loads', 'dumps'):
            ty = {'versify': 'str', 'deversify': 'vparts', 'sizeify': 'sizeified', 'sniff': 'vparts', 'loads': 'Value', 'dumps': 'bytes'}[fn]
            return '%s %s' % (fn, self.args(a)), ('res', ty)
        if fn == 'derive' and 'saider' in self.file: return 'said_derive %s' % self.args(a), ('res', ('tup', ['bytes', 'Value']))
        if fn == 'validate_code' and 'saider' in self.file: return 'validate saider_codes %s' % self.args(a), ('res', 'unit')
        if fn == 'params' and q == 'salt': raise Skip('salt::params (the model has no separate argon2 parameter check)')
        if False: return 'tier_params %s' % self.args(a), ('res', ('tup', ['int', 'int']))
        if fn == 'stretch' and q == 'salt': return 'salt_stretch %s' % self.args(a), ('res', 'bytes')
        if fn == 'from_str' and q == 'serde_json': return 'from_json %s' % self.args(a), ('res', 'Value')
        raise Skip('call of %s' % '::'.join(p))
    CT = {'TestMatter': 'matter_new', 'TestIndexer': 'indexer_new', 'Counter': 'counter_new', 'TestSadder': 'sadder_new (s2b "KERI")', 'Signer': 'signer_new 0', 'Salter': 'salter_new 0', 'Dater': 'dater_new (s2b "2020-08-22T17:50:09.988921+00:00")'}
    def ctor(self, q, fn, a):
        new = self.CT.get(q, q.lower() + '_new')
        if fn == 'new': return '%s %s' % (new, self.args(a)), ('res', q)
        if fn == 'default':
            d = {'Verfer': 'verfer_default', 'Tholder': 'tholder_default', 'Saider': 'saider_default', 'TestMatter': '(Mat (s2b "E") 0 [])', 'TestSadder': '(sadder_default (s2b "KERI"))', 'TestIndexer': '(Idx [] [] 0 0)', 'Counter': 'counter_default'}.get(q)
            if d: return d, q
        if (q, fn) in WITH:
            ps, tmpl = WITH[(q, fn)]; env = dict(zip(ps, [self.x(v)[0] for v in a])); out = []
            for t in tmpl:
                m = re.match(r'Some\((\w+)\)$', t)
                out.append('(Some %s)' % env[m.group(1)] if m else 'None' if t == 'None' else '(%s)' % env[t])
            return '%s %s' % (new, ' '.join(out)), ('res', q)
        if q == 'Counter':
            if fn.startswith('new_with'): return 'counter_%s %s' % (fn, self.args(a)), ('res', q)
            if fn == 'sem_ver_to_b64': return 'sem_ver_to_b64 %s' % self.args(a), ('res', 'str')
            if fn == 'sem_ver_str_to_b64': return 'sem_ver_str_to_b64 %s' % self.args(a), ('res', 'str')
        if q == 'TestMatter' and fn.startswith('new_with'): return 'matter_%s %s' % (fn, self.args(a)), ('res', q)
        if q == 'TestIndexer' and fn.startswith('new_with'): return 'indexer_%s %s' % (fn, self.args(a)), ('res', q)
        if q == 'Saider' and fn == 'saidify': return 'saidify %s' % self.args(a), ('res', ('tup', ['Saider', 'Value']))
        if q in MATTERISH and fn.startswith('new_with'): return 'matter_%s %s' % (fn, self.args(a)), ('res', q)
        if q == 'Pather' and fn == '_resolve': return '(v <- to_vec %s ;; resolve %s v)' % (self.x(a[1])[0], self.x(a[0])[0]), ('res', 'Value')
        raise Skip('%s::%s' % (q, fn))
    IDENT = ('clone', 'to_vec', 'as_bytes', 'as_ref', 'as_slice', 'iter', 'collect', 'as_str', 'to_owned', 'into', 'borrow', 'chars_')
    def method(self, e):
        _, recv, name, a = e
        if name == 'decode' and recv[0] == 'path' and recv[1][-1] == 'URL_SAFE': return 'b64_decode %s' % self.args(a), ('res', 'bytes')
        if name == 'encode' and recv[0] == 'path' and recv[1][-1] == 'URL_SAFE': return '(b64_encode %s)' % self.args(a), 'str'
        if name == 'join' and recv[0] == 'array' and a == [('str', b'')]: return '(concat [%s])' % '; '.join(self.x(y)[0] for y in recv[1]), 'str'
        if name == 'collect' and recv[0] == 'method' and recv[2] == 'map' and recv[1][0] == 'range' and recv[3][0][1] == ['_'] and recv[3][0][2][0] == 'str':
            n = self.x(recv[1][2])[0]; return '(repeat %d (N.to_nat %s))' % (recv[3][0][2][1][0], n), 'str'
        if name == 'next' and recv[0] == 'path' and ('chars', recv[1][0]) in self.env:
            c = self.env[('chars', recv[1][0])]; k = c.pop(0); return '(Some %d)' % k, ('opt', 'int')
        if name == 'chars' and recv[0] == 'str': return '([] : bytes)', 'bytes'
        if name == 'map' and a and a[0][0] == 'closure':
            t, ty = self.x(recv); c = a[0]
            if not isinstance(ty, tuple): raise Skip('map on %s' % (ty,))
            if len(c[1]) != 1: raise Skip('closure')
            v = self.fresh(); old = self.env.get(c[1][0]); self.env[c[1][0]] = (v, ty[1]); h, self.h = self.h, []
            b, bt = self.x(c[2]); inner, self.h = self.h, h
            body = 'Ok (%s)' % b
            for w, s in reversed(inner): body = 'bnd (%s) (fun %s => %s)' % (s, w, body)
            r = self.hoist('each (fun %s => %s) %s' % (v, body, t)); return r, ('vec', bt)
        t, ty = self.x(recv)
        if name == 'unwrap': return self.unwrap(t, ty)
        if name in ('is_ok', 'is_err') and ty[0] == 'res': return '(%s (%s))' % ({'is_ok': 'ok', 'is_err': 'errs'}[name], t), 'bool'
        if name in ('is_none', 'is_some') and ty[0] == 'opt': return '(%s (%s))' % ({'is_none': 'none', 'is_some': 'some'}[name], t), 'bool'
        if name == 'unwrap_or' and ty[0] == 'opt': return '(unwrap_or %s %s)' % (t, self.args(a)), ty[1] if ty[1] != 'any' else self.x(a[0])[1]
        if ty == 'Value':
            m = {'to_string': 'str', 'to_i64': 'i64', 'to_f64': 'float', 'to_bool': 'bool', 'to_vec': ('vec', 'Value'), 'to_map': 'map'}
            if name in m: return '%s %s' % (name, t), ('res', m[name])
            if name == 'to_json': return 'Ok (to_json %s)' % t, ('res', 'str')
            if name == 'clone': return t, ty
        if name == 'to_string' and ty in ('str', 'bytes'): return t, 'str'
        if name == 'to_string' and ty == 'int': return '(to_dec %s)' % t, 'str'
        if name in self.IDENT and (ty in ('str', 'bytes', 'map') or isinstance(ty, tuple) or name == 'clone'): return t, ('bytes' if name == 'as_bytes' else ty)
        if name == 'len' and (ty in ('str', 'bytes', 'map') or isinstance(ty, tuple)): return '(N.of_nat (length %s))' % t, 'int'
        if name == 'is_empty': return '(N.of_nat (length %s) =? 0)' % t, 'bool'
        if name == 'get' and ty == 'map': return 'map_get %s %s' % (self.args(a), t), ('opt', 'Value')
        r = self.omethod(t, ty, name, a)
        if r: return r
        raise Skip('method %s of %s' % (name, ty))
    def omethod(self, t, ty, name, a):
        A = lambda: self.args(a)
        if ty in MATTERISH or ty in INNER:
            inner = '(%s %s)' % (INNER[ty], t) if ty in INNER else t
            if (ty, name) == ('Diger', 'verify'): return 'diger_verify %s %s' % (t, A()), ('res', 'bool')
            if (ty, name) == ('Diger', 'compare'): return 'diger_compare %s %s' % (t, A()), ('res', 'bool')
            if (ty, name) == ('Verfer', 'verify'): return 'verfer_verify %s %s' % (t, A()), ('res', 'bool')
            if (ty, name) == ('Prefixer', 'verify'): return 'prefixer_verify %s %s' % (t, A()), ('res', 'bool')
            if (ty, name) == ('Saider', 'verify'): return 'said_verify %s %s' % (t, A()), ('res', 'bool')
            if (ty, name) == ('Cigar', 'verfer'): return '(cg_verfer %s)' % t, 'Verfer'
            if (ty, name) == ('Signer', 'verfer'): return '(sn_verfer %s)' % t, 'Verfer'
            if (ty, name) == ('Signer', 'sign_unindexed'): return 'sign_unindexed %s 0 %s' % (t, A()), ('res', 'Cigar')
            if (ty, name) == ('Signer', 'sign_indexed'): return 'sign_indexed %s 0 %s' % (t, A()), ('res', 'Siger')
            if ty == 'Number' and name in ('num', 'numh', 'positive'): return 'number_%s %s' % (name, t), ('res', {'num': 'int', 'numh': 'str', 'positive': 'bool'}[name])
            if ty == 'Seqner' and name in ('sn', 'snh'): return 'seqner_%s %s' % (name, t), ('res', {'sn': 'int', 'snh': 'str'}[name])
            if ty == 'Dater' and name in ('dts', 'dtsb'): return 'dater_dts %s' % t, ('res', 'str')
            if ty in ('Bexter', 'Pather') and name == 'bext': return 'bext_of %s' % t, ('res', 'str')
            if ty == 'Pather' and name in ('path', 'root', 'strip', 'starts_with', 'resolve', 'tail'):
                return 'pather_%s %s %s' % (name, t, A()), ('res', {'path': 'Value', 'root': 'Pather', 'strip': 'Pather', 'starts_with': 'bool', 'resolve': 'Value', 'tail': 'str'}[name])
            if ty == 'Salter':
                if name == 'stretch': return 'salter_stretch %s %s' % (t, A()), ('res', 'bytes')
                if name == 'signer': return 'salter_signer %s %s' % (t, A()), ('res', 'Signer')
                if name == 'signers': return 'salter_signers %s %s' % (t, A()), ('res', ('vec', 'Signer'))
                if name == 'tier': return '(sl_tier %s)' % t, 'str'
            m = {'code': ('m_code', 'str'), 'raw': ('m_raw', 'bytes'), 'size': ('m_size', 'int'), 'digestive': ('matter_digestive', 'bool'), 'transferable': ('matter_transferable', 'bool')}
            if name in m: return '(%s %s)' % (m[name][0], inner), m[name][1]
            m = {'qb64': 'str', 'qb64b': 'bytes', 'qb2': 'bytes', 'full_size': 'int'}
            if name in m: return 'matter_%s %s' % (name, inner), ('res', m[name])
        if ty in ('TestIndexer', 'Siger'):
            inner = '(sg_indexer %s)' % t if ty == 'Siger' else t
            if (ty, name) == ('Siger', 'verfer'): return '(sg_verfer %s)' % t, 'Verfer'
            m = {'code': ('x_code', 'str'), 'raw': ('x_raw', 'bytes'), 'index': ('x_index', 'int'), 'ondex': ('x_ondex', 'int')}
            if name in m: return '(%s %s)' % (m[name][0], inner), m[name][1]
            m = {'qb64': 'str', 'qb64b': 'bytes', 'qb2': 'bytes', 'full_size': 'int'}
            if name in m: return 'indexer_%s %s' % (name, inner), ('res', m[name])
        if ty == 'Counter':
            m = {'code': ('c_code', 'str'), 'count': ('c_count', 'int')}
            if name in m: return '(%s %s)' % (m[name][0], t), m[name][1]
            m = {'qb64': 'str', 'qb64b': 'bytes', 'qb2': 'bytes', 'full_size': 'int', 'count_as_b64': 'str'}
            if name in m: return 'counter_%s %s %s' % (name, t, A()), ('res', m[name])
        if ty == 'Tholder':
            m = {'thold': ('th_thold', 'Value'), 'weighted': ('th_weighted', 'bool'), 'size': ('th_size', 'int')}
            if name in m: return '(%s %s)' % (m[name][0], t), m[name][1]
            m = {'num': ('opt', 'int'), 'limen': 'bytes', 'sith': 'Value', 'to_json': 'str'}
            if name in m: return 'tholder_%s %s' % (name, t), ('res', m[name])
            if name == 'satisfy': return 'satisfy %s %s' % (t, A()), ('res', 'bool')
        if ty in ('Serder', 'Creder', 'TestSadder'):
            m = {'code': 'str', 'raw': 'bytes', 'ked': 'Value', 'ident': 'str', 'kind': 'str', 'size': 'int', 'version': 'version', 'saider': 'Saider'}
            if name == 'crd': name = 'ked'
            if name in m: return '(sd_%s %s)' % (name, t), m[name]
            if name in ('said', 'saidb'): return 'sadder_%s %s' % (name, t), ('res', 'str')
            if name == 'populate_from_kind_and_self': return 'snd (populate_from_kind_and_self %s %s)' % (t, A()), ('res', 'unit')
            if name == 'pretty': return 'sadder_pretty %s %s' % (t, A()), ('res', 'str')
            if ty == 'Serder':
                m = {'verfers': ('vec', 'Verfer'), 'werfers': ('vec', 'Verfer'), 'digers': ('vec', 'Diger'), 'tholder': ('opt', 'Tholder'), 'ntholder': ('opt', 'Tholder'), 'sner': 'Number', 'sn': 'int', 'fner': ('opt', 'Number'), 'pre': 'str', 'est': 'bool'}
                if name == '_fn': return 'serder_fn %s' % t, ('res', 'int')
                if name == 'preb': return 'serder_pre %s' % t, ('res', 'str')
                if name in m: return 'serder_%s %s' % (name, t), ('res', m[name])
            if ty == 'Creder':
                m = {'issuer': 'str', 'schema': 'str', 'subject': 'Value', 'status': ('opt', 'str'), 'chains': 'Value'}
                if name in m:
                    if name == 'subject': return self.hoist('unw (creder_subject %s)' % t), 'Value'
                    return 'creder_%s %s' % (name, t), ('res', m[name])
        return None
    def field(self, e):
        t, ty = self.x(e[1]); f = e[2]
        if ty == 'TestIndexer' and f in ('code', 'raw', 'index', 'ondex'): return '(x_%s %s)' % (f, t), {'code': 'str', 'raw': 'bytes'}.get(f, 'int')
        if ty in MATTERISH and f in ('code', 'raw', 'size'): return '(m_%s %s)' % (f, t), {'code': 'str', 'raw': 'bytes', 'size': 'int'}[f]
        if ty == 'version': return '(v_%s %s)' % (f, t), 'int'
        if ty == 'vparts': return '(vp_%s %s)' % (f, t), {'size': 'int', 'version': 'version'}.get(f, 'str')
        if ty == 'sizeified': return '(sz_%s %s)' % (f, t), {'ked': 'Value', 'version': 'version', 'raw': 'bytes'}.get(f, 'str')
        if ty in ('msizage', 'csizage'): return '(%s %s)' % (f, t), 'int'
        if ty == 'isizage': return '(%s %s)' % (IFIELD.get(f, f), t), 'int'
        if isinstance(ty, tuple) and ty[0] == 'tup': return '(%s %s)' % (['fst', 'snd'][int(f)], t), ty[1][int(f)]
        raise Skip('field %s of %s' % (f, ty))
    def macro(self, e):
        n, a = e[1], e[2]
        if n in ('assert', 'assert_eq', 'assert_ne'):
            if n == 'assert': c = self.x(a[0])[0]
            else:
                (x, tx), (y, ty) = self.x(a[0]), self.x(a[1]); c = self.eq(x, tx, y, ty)
                if n == 'assert_ne': c = '(negb %s)' % c
            self.h.append(('_', 'need %s' % c)); self.count += 1; return 'tt', 'unit'
        if n == 'matches': raise Skip('matches!')
        if n == 'format':
            fmt = a[0][1].decode(); parts = re.split(r'\{(\w*)\}', fmt); out = [lit(parts[0].encode())] if parts[0] else []; rest = list(a[1:])
            for i in range(1, len(parts), 2):
                x = ('path', [parts[i]]) if parts[i] else rest.pop(0)
                t, ty = self.x(x)
                if ty == 'int': t = '(to_dec %s)' % t
                elif ty == 'Value': t = '(to_json %s)' % t
                elif ty not in ('str', 'bytes'): raise Skip('format of %s' % (ty,))
                out.append(t)
                if parts[i + 1]: out.append(lit(parts[i + 1].encode()))
            return '(%s)' % ' ++ '.join(out or ['[]']), 'str'
        if n == 'println': return 'tt', 'unit'
        raise Skip('macro %s' % n)
    want = None
    count = 0
    def rustty(self, ty):
        if not ty: return None
        w = ty.replace('&', '').replace("'static", '').replace('mut ', '').replace(' ', '')
        if w in OBJ: return w
        if w in ('str', 'String', 'char'): return 'str' if w != 'char' else 'int'
        if w in ('[u8]', 'Vec<u8>') or re.fullmatch(r'\[u8;\w+\]', w): return 'bytes'
        if w in ('u8', 'u16', 'u32', 'u64', 'u128', 'usize', 'i32'): return 'int'
        if w == 'bool' or w == 'Value': return w
        m = re.fullmatch(r'Option<(.*)>', w)
        if m: return ('opt', self.rustty(m.group(1)) or 'any')
        m = re.fullmatch(r'(?:Vec<(.*)>|\[([^;]*)(?:;\w+)?\])', w)
        if m: return ('vec', self.rustty(m.group(1) or m.group(2)) or 'any')
        return None
    def stmts(self, ss, tail):
        out = []
        def flush():
            for v, t in self.h: out.append('%s <~ %s ;;' % (v, t) if v != '_' else '_ <~ %s ;;' % t)
            self.h = []
        for s in ss + ([('expr', tail)] if tail is not None else []):
            if s[0] == 'let':
                _, pat, ty, e = s
                if e is None: raise Skip('declaration without value')
                rt = self.rustty(ty); self.want = rt if rt in OBJ else None
                t, et = self.x(e); self.want = None; flush()
                if isinstance(pat, tuple):
                    if not (isinstance(et, tuple) and et[0] == 'tup'): raise Skip('pattern of %s' % (et,))
                    vs = [self.fresh() for _ in pat]; out.append("let '(%s) := %s in" % (', '.join(vs), t))
                    for p, v, y in zip(pat, vs, et[1]):
                        if p != '_': self.env[p] = (v, y)
                else:
                    v = self.fresh(); ct = coqty(rt) if t in ('None', '[]') and rt else None
                    out.append('let %s%s := %s in' % (v, ' : %s' % ct if ct else '', t))
                    if rt and rt not in ('int',) and et != 'i64': et = rt if not (isinstance(rt, tuple) and 'any' in rt) else et
                    if ty and 'Value' == rt: et = 'Value'
                    self.env[pat] = (v, et)
            elif s[0] == 'assign':
                _, op, l, r = s; t, et = self.x(r)
                if op != '=': t, et = self.x(('bin', op[0], l, r))
                if l[0] == 'path':
                    flush(); v = self.fresh(); out.append('let %s := %s in' % (v, t)); self.env[l[1][0]] = (v, self.env[l[1][0]][1])
                elif l[0] == 'index' and l[1][0] == 'path':
                    i, ity = self.x(l[2]); b, bt = self.x(l[1]); v = self.fresh()
                    if bt == 'Value': self.h.append((v, 'unw (%s %s %s %s)' % ('vset' if ity == 'str' else 'vset_nth', b, i, self.dat(r)))); flush()
                    else: flush(); out.append('let %s := upd %s (N.to_nat %s) %s in' % (v, b, i, t))
                    self.env[l[1][1][0]] = (v, bt)
                elif l[0] == 'field' and l[2] == 'raw' and l[1][0] == 'path' and self.x(l[1])[1] in MATTERISH:
                    b, bt = self.x(l[1]); flush(); v = self.fresh(); out.append('let %s := (Mat (m_code %s) (m_size %s) %s) in' % (v, b, b, t)); self.env[l[1][1][0]] = (v, bt)
                elif l[0] == 'index' and l[1][0] == 'index' and l[1][1][0] == 'path':
                    b, bt = self.x(l[1][1]); o, oty = self.x(l[1][2]); i, ity = self.x(l[2]); inner, _ = self.x(l[1]); v, w = self.fresh(), self.fresh()
                    st = lambda y: 'vset' if y == 'str' else 'vset_nth'
                    self.h.append((w, 'unw (%s %s %s %s)' % (st(ity), inner, i, self.dat(r)))); self.h.append((v, 'unw (%s %s %s %s)' % (st(oty), b, o, w))); flush(); self.env[l[1][1][1][0]] = (v, bt)
                else: raise Skip('assignment')
            elif s[0] == 'expr':
                e = s[1]
                if e[0] == 'method' and e[1][0] == 'path' and len(e[1][1]) == 1 and e[1][1][0] in self.env and e[2] in ('push', 'resize', 'append', 'insert', 'set_code', 'set_verfer', 'shift_remove', 'extend_from_slice', 'push_str', 'truncate', 'set_ked'):
                    self.mutate(e[1][1][0], e[2], e[3], flush, out); continue
                if e[0] == 'iflet':
                    st = self.env.get(('static', e[2][1][0])) if e[2][0] == 'path' else None
                    if st is None: raise Skip('if let')
                    if st == ('path', ['None']): out += self.stmts(*e[4])
                    else: out += self.stmts([('let', e[1], None, st[2][0])] + e[3][0], e[3][1])
                    continue
                if e[0] == 'if' and e[1][0] == 'not' and e[1][1][0] == 'method' and e[1][1][2] == 'is_empty' and ('list', e[1][1][1][1][0]) in self.env:
                    if self.env[('list', e[1][1][1][1][0])]: out += self.stmts(*e[2][1:])
                    continue
                if e[0] == 'block': raise Skip('block')
                h0, c0 = list(self.h), self.count
                try: t, ty = self.x(e)
                except Skip as err:
                    if 'array of' not in str(err) or e[0] != 'macro': raise
                    self.h, self.count = h0, c0; self.left.append(str(err))
                flush()
            elif s[0] == 'for':
                _, pat, it, body = s
                if it[0] == 'range' and it[1] and it[1][0] == 'int' and it[2] and it[2][0] == 'int': items = [('int', i) for i in range(it[1][1], it[2][1])]
                elif it[0] == 'array': items = it[1]
                elif it[0] == 'method' and it[2] == 'iter' and it[1][0] == 'array': items = it[1][1]
                elif it[0] == 'method' and it[2] == 'enumerate' and it[1][0] == 'method' and it[1][2] == 'chars' and ('static', it[1][1][1][0]) in self.env and isinstance(pat, tuple):
                    for k, c in enumerate(self.env[('static', it[1][1][1][0])][1]):
                        self.env[pat[0]] = (str(k), 'int'); self.env[pat[1]] = (str(c), 'int'); out += self.stmts(*body)
                    continue
                elif it[0] == 'range' and pat == '_' and len(body[0]) == 1 and body[0][0][0] == 'expr' and body[0][0][1][0] == 'method' and body[0][0][1][2] == 'insert':
                    m = body[0][0][1]; n = self.x(it[2])[0]; b, bt = self.x(m[1]); y = self.x(m[3][1])[0]; v = self.fresh()
                    flush(); out.append('let %s := repeat %s (N.to_nat %s) ++ %s in' % (v, y, n, b)); self.env[m[1][1][0]] = (v, bt); continue
                elif it[0] == 'path' and ('list', it[1][0]) in self.env: items = self.env[('list', it[1][0])]
                else: raise Skip('for loop')
                if isinstance(pat, tuple): raise Skip('for pattern')
                for x in items:
                    t, ty = self.x(x); flush(); self.env[pat] = (t, ty); out += self.stmts(*body)
            else: raise Skip(s[0])
            if s[0] == 'let' and isinstance(s[1], str): self.env[('static', s[1])] = s[3] if s[3][0] in ('path', 'call', 'str') and (s[3][0] != 'path' or s[3][1] == ['None']) and (s[3][0] != 'call' or s[3][1] == ('path', ['Some'])) else None
            if s[0] == 'let' and isinstance(s[1], str) and s[3][0] == 'method' and s[3][2] == 'chars' and s[3][1][0] == 'str': self.env[('chars', s[1])] = list(s[3][1][1])
            if s[0] == 'let' and isinstance(s[1], str) and s[3][0] == 'array': self.env[('list', s[1])] = s[3][1]
        return out
    def mutate(self, x, name, a, flush, out):
        b, bt = self.env[x]; v = self.fresh()
        xs = [self.x(y) for y in a]
        if name == 'push' and bt != 'Value': t = '(%s ++ [%s])' % (b, xs[0][0]); bt = bt if bt != ('vec', 'any') else ('vec', xs[0][1])
        elif name in ('append', 'extend_from_slice', 'push_str'): t = '(%s ++ %s)' % (b, xs[0][0])
        elif name == 'resize': t = '(take %s (%s ++ repeat %s (N.to_nat %s)))' % (xs[0][0], b, xs[1][0], xs[0][0])
        elif name == 'truncate': t = '(take %s %s)' % (xs[0][0], b)
        elif name == 'insert' and bt == 'map': t = '(map_insert %s %s %s)' % (xs[0][0], xs[1][0], b)
        elif name == 'shift_remove' and bt == 'map': t = '(map_remove %s %s)' % (xs[0][0], b)
        elif name == 'set_code' and bt in MATTERISH: t = '(Mat %s (m_size %s) (m_raw %s))' % (xs[0][0], b, b)
        elif name == 'set_code' and bt == 'TestIndexer': t = '(Idx %s (x_raw %s) (x_index %s) (x_ondex %s))' % (xs[0][0], b, b, b)
        elif name == 'set_code' and bt == 'TestSadder': t = '(set_code %s %s)' % (b, xs[0][0])
        elif name == 'set_verfer' and bt == 'Cigar': t = '(Cig (cg_matter %s) %s)' % (b, xs[0][0])
        elif name == 'set_verfer' and bt == 'Siger': t = '(Sg (sg_indexer %s) %s)' % (b, xs[0][0])
        elif name == 'insert' and bt == 'bytes' and xs[0][0] == '0': t = '(%s :: %s)' % (xs[1][0], b)
        elif name == 'set_ked' and bt == 'TestSadder': t = '(Sdr (sd_code %s) (sd_raw %s) %s (sd_ident %s) (sd_kind %s) (sd_size %s) (sd_version %s) (sd_saider %s))' % (b, b, xs[0][0], b, b, b, b, b)
        else: raise Skip('%s on %s' % (name, bt))
        flush(); out.append('let %s := %s in' % (v, t)); self.env[x] = (v, bt)

TABLE = {('m', 'sizage'): 'get_sizage', ('m', 'hardage'): 'hardage', ('m', 'bardage'): 'bardage', ('m', 'raw_size'): 'raw_size',
         ('c', 'sizage'): 'c_sizage', ('c', 'hardage'): 'c_hardage', ('c', 'bardage'): 'c_bardage', ('c', 'raw_size'): None,
         ('i', 'sizage'): 'get_isizage', ('i', 'hardage'): 'i_hardage', ('i', 'bardage'): 'i_bardage', ('i', 'raw_size'): None}
IFIELD = {'hs': 'i_hs', 'ss': 'i_ss', 'os': 'i_os', 'fs': 'i_fs', 'ls': 'i_ls'}


def coqty(t):
    if t in ('str', 'bytes', 'float'): return 'bytes'
    if t == 'int': return 'N'
    if t == 'bool': return 'bool'
    if t == 'Value': return 'data'
    if t in MATTERISH: return 'matter'
    if isinstance(t, tuple) and t[0] in ('opt', 'vec'):
        c = coqty(t[1])
        return c and '%s (%s)' % ({'opt': 'option', 'vec': 'list'}[t[0]], c)
    return None

def uses_of(src, file):
    u = {}
    if 'counter::tables as matter' in src: u['matter'] = 'counter'
    own = file.split('/')[1] if file.count('/') > 1 else ''
    for m in ('matter', 'counter', 'indexer'):
        if file.startswith('core/%s/' % m): u['tables'] = u['Codex'] = m; u['self'] = m
    return u

def main():
    only = sys.argv[1:] 
    res, report = [], []
    for f in sorted(glob.glob(SRC + '**/*.rs', recursive=True)):
        rel = f[len(SRC):]
        if only and not any(o in rel for o in only): continue
        s = open(f).read(); i = s.find('mod test')
        if i < 0: continue
        src = s[s.index('{', i) + 1:s.rindex('}')]; uses = uses_of(src, rel)
        for name, cases, ps, body in tests(src):
            if cases is None: report.append((rel, name, 0, 0, ps)); continue
            # the cases
            combos = []
            cs = cases or [None]
            for c in cs:
                axes, ci = [], 0
                for (n, ty, is_case, vals) in ps:
                    if is_case: axes.append([c[ci]]); ci += 1
                    else: axes.append(vals)
                combos += list(itertools.product(*axes))
            got, asserts, err = 0, 0, None
            for ci, combo in enumerate(combos):
                em = E(rel, uses)
                try:
                    lets = [('let', n, ty, v) for (n, ty, _, _), v in zip(ps, combo)]
                    b = P(list(body)).block()
                    lines = em.stmts(lets + b[0], b[1])
                    res.append(('t_%s_%s_%d' % (re.sub(r'\W', '_', rel[:-3]).replace('core_', '').replace('_mod', ''), name, ci), rel, name, lines)); got += 1; asserts += em.count
                    if em.left: print(rel, name, 'assertions left out:', em.left)
                except Skip as e: err = str(e)
                except (KeyError, TypeError, IndexError, AttributeError) as e: err = 'not supported: %r' % e
            report.append((rel, name, got, len(combos), err, asserts))
    return res, report


# tests that only compare constants (nothing of the model is involved)
CONSTANTS = {('core/indexer/tables.rs', n) for n in ('codex', 'sig_codex', 'current_sig_codex', 'both_sig_codex')} | {('core/counter/tables.rs', 'codex'), ('core/matter/tables.rs', 'codes')}
# tests with fixed results of algorithms that are oracles in the model
ORACLE = {('core/salter.rs', 'python_interop'), ('core/signer.rs', 'hardcoded'), ('core/signer.rs', 'hardcoded_openssl_vectors'), ('crypto/salt.rs', 'stretch')}
GROUPS = [('Matter', 'matter/'), ('Indexer', 'indexer/'), ('Codes', 'counter/ util. number. seqner. dater. bexter. common. data.'), ('Prims', 'diger. verfer. cigar. siger. signer. salter. crypto/'), ('Said', 'saider. serder. sadder. creder.'), ('Trees', 'prefixer. pather. tholder.')]
HEAD = """(** The unit tests of %s on the model: written by tools/mkconform.py.
    Every definition is one case of a test function; it is [Ok tt] if all assertions hold. *)
From Verif Require Import Base Utf8 B64 Util StdStr MatterTables Matter CounterTables Counter IndexerTables Indexer Crypto Prims Signer Data Json Common Saider Tholder Sadder Pather Prefixer Pretty Defaults DataDefs Hash Float ConformDefs.
#[local] Existing Instance test_crypto.
#[local] Existing Instance real_floats.
Section T.
Context {P : Profile}.
"""

if __name__ == '__main__':
    res, report = main()
    skip = CONSTANTS | ORACLE
    out = []
    for g, pats in GROUPS:
        rs = [r for r in res if any(p in r[1] for p in pats.split()) and (r[1], r[2]) not in skip]
        files = sorted({r[1] for r in rs})
        t = HEAD % ', '.join('/repo/src/' + f for f in files)
        for n, f, name, lines in rs: t += '(** %s, %s *)\nDefinition %s : outcome unit :=\n  %s\n  Ok tt.\n' % (f, name, n, '\n  '.join(lines))
        t += 'End T.\n\n'
        for f in files:
            ns = [r[0] for r in rs if r[1] == f]; k = re.sub(r'\W', '_', f[:-3]).replace('core_', '')
            t += '(** the %d cases of %s *)\nDefinition %s_cases {P : Profile} : list (outcome unit) :=\n  [%s].\nExample %s_conforms : forall P : Profile, forallb ok %s_cases = true.\nProof. intros [|]; vm_compute; reflexivity. Qed.\n' % (len(ns), f, k, '; '.join(ns), k, k)
        # definitions that do not depend on the profile have no such argument
        open('/verif/rocq/theories/Conform%s.v' % g, 'w').write(t); out.append(('Conform%s.v' % g, len(rs), len(t)))
    done = [r for r in report if not r[4] and (r[0], r[1]) not in skip]
    print(out); print('tests: %d of %d, cases: %d, assertions: %d' % (len(done), len(report), sum(o[1] for o in out), sum(r[5] for r in done)))
    for r in report:
        if (r[0], r[1]) in CONSTANTS: print(r[0], r[1], 'constants only')
        elif (r[0], r[1]) in ORACLE: print(r[0], r[1], 'fixed results of oracles')
        elif r[4]: print(r[0], r[1], r[4])
