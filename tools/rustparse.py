"""A parser for the Rust subset used in the unit tests of /repo (see mkconform.py)."""
import re

class Skip(Exception): pass

TOK = re.compile(r'''
  (?P<ws>\s+|//[^\n]*|/\*.*?\*/)
 |(?P<rawstr>b?r(?P<h>\#*)".*?"(?P=h))
 |(?P<str>b?"(?:\\.|[^"\\])*")
 |(?P<char>b?'(?:\\x[0-9a-fA-F]{2}|\\u\{[0-9a-fA-F]+\}|\\.|[^'\\])')
 |(?P<life>'[a-z_]+)
 |(?P<float>\d[\d_]*\.\d[\d_]*(?:[eE][+-]?\d+)?)
 |(?P<int>0x[0-9a-fA-F_]+(?:[ui](?:8|16|32|64|128|size))?|0b[01_]+|\d[\d_]*(?:[uif](?:8|16|32|64|128|size))?)
 |(?P<id>[A-Za-z_][A-Za-z0-9_]*)
 |(?P<op>\.\.=|\.\.|::|=>|->|==|!=|<=|>=|&&|\|\||<<|\+=|-=|\^=|\*=|>>|[-+*/%^!&|=<>.,;:?()\[\]{}\#@])
''', re.X | re.S)

def tokenize(s):
    out, i = [], 0
    while i < len(s):
        m = TOK.match(s, i)
        if not m: raise Skip("token at %r" % s[i:i + 30])
        i = m.end()
        k = m.lastgroup
        if m.group('rawstr'): out.append(('rawstr', m.group('rawstr')))
        elif k == 'ws' or m.group('ws'): continue
        else:
            for k in ('str', 'char', 'life', 'float', 'int', 'id', 'op'):
                if m.group(k) is not None: out.append((k, m.group(k))); break
    return out

def unescape(body, is_bytes):
    """the bytes of a string literal"""
    out, i = bytearray(), 0
    while i < len(body):
        c = body[i]
        if c != '\\': out += c.encode(); i += 1; continue
        d = body[i + 1]
        if d == '\n':
            i += 2
            while i < len(body) and body[i].isspace(): i += 1
            continue
        if d == 'x': out.append(int(body[i + 2:i + 4], 16)); i += 4; continue
        if d == 'u':
            j = body.index('}', i); out += chr(int(body[i + 3:j], 16)).encode(); i = j + 1; continue
        out += {'n': b'\n', 't': b'\t', 'r': b'\r', '0': b'\0', '\\': b'\\', '"': b'"', "'": b"'"}[d]; i += 2
    return bytes(out)

class P:
    def __init__(self, toks): self.t, self.i = toks, 0
    def peek(self, k=0): return self.t[self.i + k] if self.i + k < len(self.t) else ('eof', '')
    def at(self, v): return self.peek()[1] == v and self.peek()[0] in ('op', 'id')
    def eat(self, v):
        if self.at(v): self.i += 1; return True
        return False
    def need(self, v):
        if not self.eat(v): raise Skip("expected %s, found %s" % (v, ' '.join(x[1] for x in self.t[self.i:self.i + 6])))
    def ident(self):
        k, v = self.peek()
        if k != 'id': raise Skip("identifier expected: %s" % v)
        self.i += 1; return v
    def skip_group(self):
        """past a balanced group"""
        o = self.peek()[1]; depth = 0
        while True:
            v = self.peek()
            if v[0] == 'eof': raise Skip("unbalanced")
            self.i += 1
            if v[0] == 'op' and v[1] in '([{': depth += 1
            elif v[0] == 'op' and v[1] in ')]}':
                depth -= 1
                if depth == 0: return
    # types are kept as text
    def type_(self, stops):
        out, depth = [], 0
        while True:
            k, v = self.peek()
            if k == 'eof': raise Skip("type")
            if depth == 0 and k == 'op' and v in stops: return ' '.join(out)
            if v in ('<', '(', '['): depth += 1
            elif v in ('>', ')', ']'): depth -= 1
            elif v == '>>': depth -= 2
            out.append(v); self.i += 1
    BIN = {'||': 1, '&&': 2, '==': 3, '!=': 3, '<': 3, '>': 3, '<=': 3, '>=': 3, '|': 4, '^': 5, '&': 6, '<<': 7, '>>': 7, '+': 8, '-': 8, '*': 9, '/': 9, '%': 9}
    def expr(self, p=0, nostruct=False):
        e = self.unary(nostruct)
        while True:
            k, v = self.peek()
            if k == 'id' and v == 'as' and p <= 10:
                self.i += 1; ty = self.ident(); e = ('cast', e, ty); continue
            if k == 'op' and v in ('..', '..=') and p == 0:
                self.i += 1
                if self.peek()[1] in (']', ')', '{', ';', ','): e = ('range', e, None, v)
                else: e = ('range', e, self.expr(1, nostruct), v)
                continue
            if k == 'op' and v in self.BIN and self.BIN[v] > p - 0 and self.BIN[v] >= p + 0 and (p == 0 or self.BIN[v] >= p):
                self.i += 1
                e = ('bin', v, e, self.expr(self.BIN[v] + 1, nostruct)); continue
            return e
    def unary(self, ns):
        k, v = self.peek()
        if k == 'op':
            if v == '&' or v == '&&':
                self.i += 1; self.eat('mut'); return self.unary(ns)
            if v == '*': self.i += 1; return self.unary(ns)
            if v == '!': self.i += 1; return ('not', self.unary(ns))
            if v == '-': self.i += 1; return ('neg', self.unary(ns))
            if v in ('..', '..='):
                self.i += 1
                if self.peek()[1] in (']', ')'): return ('range', None, None, v)
                return ('range', None, self.expr(1, ns), v)
            if v in ('|', '||'): return self.closure()
        return self.postfix(self.primary(ns), ns)
    def closure(self):
        ps = []
        if self.eat('||'): pass
        else:
            self.need('|')
            while not self.eat('|'):
                while self.eat('&'): pass
                ps.append(self.ident()); self.eat(',')
        return ('closure', ps, self.expr(0) if not self.at('{') else ('block',) + self.block())
    def args(self, close=')'):
        out = []
        while not self.eat(close):
            out.append(self.expr()); 
            if not self.eat(','): self.need(close); break
        return out
    def postfix(self, e, ns):
        while True:
            if self.eat('.'):
                k, v = self.peek()
                if k == 'int': self.i += 1; e = ('field', e, v); continue
                if k == 'float': self.i += 1; a, b = v.split('.'); e = ('field', ('field', e, a), b); continue
                name = self.ident(); tf = None
                if self.at('::'):
                    self.i += 1; self.need('<'); tf = self.type_(('>',)); self.need('>')
                if self.eat('('): e = ('method', e, name, self.args())
                else: e = ('field', e, name)
            elif self.eat('('): e = ('call', e, self.args())
            elif self.eat('['): e = ('index', e, self.expr()); self.need(']')
            elif self.eat('?'): e = ('method', e, 'unwrap', [])
            else: return e
    def primary(self, ns):
        k, v = self.peek()
        if k == 'int':
            self.i += 1
            if re.fullmatch(r'[\d_]+f(32|64)', v): return ('float', v[:-3].replace('_', '') + '.0')
            t = re.sub(r'[ui](8|16|32|64|128|size)$', '', v) if not v.startswith('0x') else re.sub(r'(u8|u16|u32|u64|u128|usize|i32|i64)$', '', v)
            return ('int', int(t.replace('_', ''), 0))
        if k == 'float': self.i += 1; return ('float', v)
        if k == 'str':
            self.i += 1
            b = v.startswith('b'); return ('bytes' if b else 'str', unescape(v[v.index('"') + 1:-1], b))
        if k == 'rawstr':
            self.i += 1
            m = re.match(r'(b?)r(#*)"(.*)"\2$', v, re.S); return ('bytes' if m.group(1) else 'str', m.group(3).encode())
        if k == 'char':
            self.i += 1; b = v.startswith('b'); return ('int', ord(unescape(v[v.index("'") + 1:-1], b).decode('latin1')))
        if self.eat('('):
            out, comma = [], False
            while not self.eat(')'):
                out.append(self.expr())
                if self.eat(','): comma = True
                else: self.need(')'); break
            return out[0] if len(out) == 1 and not comma else ('tuple', out)
        if self.eat('['):
            if self.eat(']'): return ('array', [])
            e = self.expr()
            if self.eat(';'): n = self.expr(); self.need(']'); return ('repeat', e, n)
            out = [e]
            while self.eat(','):
                if self.at(']'): break
                out.append(self.expr())
            self.need(']'); return ('array', out)
        if self.at('{'): return ('block',) + self.block()
        if self.eat('if'):
            if self.at('let'):
                self.i += 1; self.need('Some'); self.need('('); n = self.ident(); self.need(')'); self.need('=')
                c = self.expr(0, True); a = self.block(); b = ([], None)
                if self.eat('else'): b = self.block()
                return ('iflet', n, c, a, b)
            c = self.expr(0, True); a = ('block',) + self.block(); b = None
            if self.eat('else'): b = self.primary(ns) if self.at('if') else ('block',) + self.block()
            return ('if', c, a, b)
        if v in ('match', 'while', 'loop', 'unsafe') and k == 'id': raise Skip(v)
        if self.eat('<'):
            ty = self.ident(); self.need('as'); tr = self.type_(('>',)); self.need('>'); path = ['<%s>' % tr.split()[-1], ty]
            while self.eat('::'): path.append(self.ident())
            return ('path', path)
        if k == 'id':
            path = [self.ident()]
            while self.at('::'):
                self.i += 1
                if self.eat('<'): self.type_(('>',)); self.need('>'); continue
                path.append(self.ident())
            if self.at('!') and self.peek(1)[1] in '([{' and self.peek(1)[0] == 'op':
                self.i += 1; return self.macro(path[-1])
            if not ns and self.at('{') and path[-1][0].isupper():
                self.i += 1; fs = []
                while not self.eat('}'):
                    if self.eat('..'): fs.append(('..', self.expr())); continue
                    n = self.ident(); fs.append((n, self.expr() if self.eat(':') else ('path', [n]))); self.eat(',')
                return ('struct', path, fs)
            return ('path', path)
        raise Skip("expression at %s" % ' '.join(x[1] for x in self.t[self.i:self.i + 6]))
    def macro(self, name):
        o = self.peek()[1]; close = {'(': ')', '[': ']', '{': '}'}[o]
        if name == 'dat':
            self.i += 1; e = self.dat(close); self.eat(','); self.need(close); return ('dat', e)
        if name == 'hex':
            self.i += 1; s = b''
            while not self.eat(close):
                k, v = self.peek(); self.i += 1; s += unescape(v[1:-1], False)
            return ('bytes', bytes.fromhex(s.decode().replace(' ', '').replace('\n', '')))
        if name == 'vec':
            self.i = self.i; self.t[self.i] = ('op', '['); 
            # find the closing token of the group and make it a bracket
            j, d = self.i, 0
            while True:
                k, v = self.t[j]
                if k == 'op' and v in '([{': d += 1
                if k == 'op' and v in ')]}':
                    d -= 1
                    if d == 0: break
                j += 1
            self.t[j] = ('op', ']'); return self.primary(False)
        self.i += 1
        return ('macro', name, self.args(close))
    def dat(self, close):
        if self.at(close): return ('dobj', [])
        if self.eat('{'):
            out = []
            while not self.eat('}'):
                k = self.dkey(); self.need(':'); out.append((k, self.dat('}'))); self.eat(',')
            return ('dobj', out)
        if self.at('['):
            save = self.i
            self.i += 1; out = []
            while not self.eat(']'): out.append(self.dat(']')); self.eat(',')
            return ('darr', out)
        return self.expr()
    def dkey(self):
        if self.eat('('): e = self.expr(); self.need(')'); return e
        return self.expr(1)
    def block(self):
        """(statements, tail expression)"""
        self.need('{'); out, tail = [], None
        while not self.eat('}'):
            if self.eat(';'): continue
            if self.at('#'): self.i += 1; self.skip_group(); continue
            if self.at('use'):
                while not self.eat(';'): self.i += 1
                continue
            if self.at('let'):
                self.i += 1; mut = self.eat('mut')
                if self.eat('('):
                    names = []
                    while not self.eat(')'): self.eat('mut'); names.append(self.ident()); self.eat(',')
                    pat = tuple(names)
                else: pat = self.ident()
                ty = None
                if self.eat(':'): ty = self.type_(('=', ';'))
                e = self.expr() if self.eat('=') else None
                self.need(';'); out.append(('let', pat, ty, e)); continue
            if self.at('const') or self.at('static'):
                self.i += 1; pat = self.ident(); self.need(':'); ty = self.type_(('=',)); self.need('='); e = self.expr(); self.need(';'); out.append(('let', pat, ty, e)); continue
            if self.at('for'):
                self.i += 1
                if self.eat('('):
                    names = []
                    while not self.eat(')'): names.append(self.ident()); self.eat(',')
                    pat = tuple(names)
                else: pat = self.ident()
                self.need('in'); it = self.expr(0, True); out.append(('for', pat, it, self.block())); continue
            if self.peek()[1] in ('struct', 'impl', 'fn') and self.peek()[0] == 'id': raise Skip("nested item")
            e = self.expr()
            k, v = self.peek()
            if k == 'op' and v in ('=', '+=', '-=', '^=', '*='):
                self.i += 1; r = self.expr(); self.need(';'); out.append(('assign', v, e, r)); continue
            if self.eat(';'): out.append(('expr', e)); continue
            if self.at('}'): tail = e
            elif e[0] in ('if', 'iflet', 'block', 'macro'): out.append(('expr', e))
            else: raise Skip("statement at %s" % ' '.join(x[1] for x in self.t[self.i:self.i + 6]))
        return out, tail

def tests(src):
    """(name, cases, parameters, body source position) of each test function of a test module"""
    toks = tokenize(src); p = P(toks)
    while p.peek()[0] != 'eof':
        attrs = []
        while p.at('#'):
            p.i += 1; a = p.i; p.skip_group(); attrs.append(toks[a + 1:p.i - 1])
        if p.at('pub'):
            p.i += 1
            if p.at('('): p.skip_group()
            continue
        if p.at('fn'):
            p.i += 1; name = p.ident()
            try:
                if p.at('<'): raise Skip("generic helper")
                p.need('('); ps = []
                while not p.eat(')'):
                    vals, case = None, False
                    while p.at('#'):
                        p.i += 1; p.need('['); w = p.ident()
                        if w == 'case': case = True
                        elif w == 'values': p.need('('); vals = p.args()
                        else: raise Skip("parameter attribute")
                        p.need(']')
                    n = p.ident(); p.need(':'); ty = p.type_((',', ')')); p.eat(',')
                    ps.append((n, ty, case, vals))
                if p.eat('->'): p.type_(('{',))
                a = p.i
                while not p.at('{'): p.i += 1
                p.skip_group(); b = p.i
                heads = [x[0][1] for x in attrs if x]
                if not any(h in ('test', 'rstest') for h in heads): continue
                cases = []
                for x in attrs:
                    if x and x[0][1] == 'case':
                        q = P(x); q.i = next(i for i, y in enumerate(x) if y == ('op', '(')) + 1; cases.append(q.args())
                yield name, cases, ps, [t for t in toks[a:b]]
            except Skip as e:
                yield name, None, str(e), None
                while not p.at('{') and p.peek()[0] != 'eof': p.i += 1
                if p.at('{'): p.skip_group()
            continue
        if p.peek()[1] in ('struct', 'impl', 'mod', 'enum', 'trait') and p.peek()[0] == 'id':
            while not p.at('{') and not p.at(';'): p.i += 1
            if p.at('{'): p.skip_group()
            else: p.i += 1
            continue
        if p.peek()[1] in ('use', 'const', 'type') and p.peek()[0] == 'id':
            while not p.eat(';'): p.i += 1
            continue
        p.i += 1
