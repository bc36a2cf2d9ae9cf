#!/usr/bin/env python3
"""Translate the Rust subset used by /repo/src into Gallina (files Src*.v).

Usage: rust2coq.py [REPO] [OUT]      (defaults /repo and ../rocq/theories)

The output is a second, mechanically produced model of the code: one definition
per Rust function, in the monad of SrcBase.v.  ProofSrc*.v prove it equal to the
hand-written model that the properties are stated about.  What the translation
does with each construct is described in SrcBase.v; a construct outside the
subset raises an exception, nothing is skipped silently (skipped items are
listed at the end of each generated file).
"""
import os, re, sys

# ------------------------------------------------------------------ lexer
TOK = re.compile(r'''
   (?P<ws>\s+) | (?P<lc>//[^\n]*) | (?P<bc>/\*.*?\*/)
 | (?P<str>"(?:[^"\\]|\\.)*") | (?P<chr>'(?:[^'\\]|\\.)') | (?P<life>'[A-Za-z_]\w*)
 | (?P<int>0x[0-9A-Fa-f_]+|0b[01_]+|[0-9][0-9_]*)
 | (?P<id>[A-Za-z_]\w*)
 | (?P<op>\.\.=|<<=|>>=|::|->|=>|==|!=|<=|>=|&&|\|\||<<|>>|\+=|-=|\*=|/=|%=|\|=|&=|\.\.|[-+*/%&|^!<>=.,;:?(){}\[\]#$@])
''', re.X | re.S)

class Tok:
    __slots__ = ('k', 'v', 'line')
    def __init__(s, k, v, line): s.k, s.v, s.line = k, v, line
    def __repr__(s): return f'{s.v!r}@{s.line}'

def lex(src):
    out, i, line = [], 0, 1
    while i < len(src):
        m = TOK.match(src, i)
        if not m: raise SyntaxError(f'line {line}: {src[i:i+30]!r}')
        k, v = m.lastgroup, m.group()
        if k not in ('ws', 'lc', 'bc'): out.append(Tok(k, v, line))
        line += v.count('\n'); i = m.end()
    out.append(Tok('eof', '', line))
    return out

# ------------------------------------------------------------------ AST
class Node:
    def __init__(s, kind, line=0, **kw):
        s.kind, s.line, s.ty = kind, line, None
        s.__dict__.update(kw)
    def __repr__(s):
        return s.kind + repr({k: v for k, v in s.__dict__.items() if k not in ('kind', 'line', 'ty')})

# ------------------------------------------------------------------ types
# ('int',kind) ('bool',) ('unit',) ('vec',T) ('opt',T) ('tup',[T]) ('adt',qual) ('res',T) Var
# String, &str, Bytes, BytesMut, &[u8], Vec<u8>, Iter<u8> are all ('vec',u8).
class Var:
    def __init__(s, isint=False): s.ref, s.isint = None, isint
U8, U16, U32, USZ, I32 = [('int', k) for k in ('u8', 'u16', 'u32', 'usize', 'i32')]
BOOL, UNIT = ('bool',), ('unit',)
BSTR = ('vec', U8)
def res(t):
    while isinstance(t, Var) and t.ref is not None: t = t.ref
    return t
def show(t):
    t = res(t)
    if isinstance(t, Var): return '?int' if t.isint else '?'
    return str(tuple(show(x) if isinstance(x, (tuple, Var)) else x for x in t))
def unify(a, b, where=''):
    a, b = res(a), res(b)
    if a is b: return
    if isinstance(a, Var):
        if a.isint and isinstance(b, Var): b.isint = True
        elif a.isint and b[0] != 'int': raise TypeError(f'{where}: int vs {show(b)}')
        a.ref = b; return
    if isinstance(b, Var): return unify(b, a, where)
    if a[0] != b[0] or len(a) != len(b): raise TypeError(f'{where}: {show(a)} vs {show(b)}')
    for x, y in zip(a[1:], b[1:]):
        if isinstance(x, (tuple, Var)): unify(x, y, where)
        elif isinstance(x, list):
            for p, q in zip(x, y): unify(p, q, where)
        elif x != y: raise TypeError(f'{where}: {show(a)} vs {show(b)}')

# ------------------------------------------------------------------ parser
class Parser:
    def __init__(s, toks, path): s.t, s.i, s.path = toks, 0, path
    def peek(s, o=0): return s.t[min(s.i + o, len(s.t) - 1)]
    def at(s, *vs): return s.peek().v in vs and s.peek().k not in ('str', 'chr')
    def next(s): s.i += 1; return s.t[s.i - 1]
    def eat(s, v):
        if s.at(v): s.i += 1; return True
        return False
    def need(s, v):
        if not s.eat(v): raise SyntaxError(f'{s.path}:{s.peek().line}: expected {v!r}, got {s.peek()}')
    def ident(s):
        t = s.next()
        if t.k != 'id': raise SyntaxError(f'{s.path}:{t.line}: identifier, got {t}')
        return t.v
    def skip_attr(s):
        """skip one attribute, return its text"""
        s.need('#'); s.eat('!'); s.need('['); d, txt = 1, ''
        while d:
            t = s.next(); txt += t.v
            d += (t.v == '[') - (t.v == ']')
        return '#[' + txt
    def skip_balanced(s, o, c):
        s.need(o); d = 1
        while d:
            t = s.next()
            if t.k in ('str', 'chr'): continue
            d += (t.v == o) - (t.v == c)
    # ---- types (syntactic)
    def type(s):
        if s.eat('&'):
            if s.peek().k == 'life': s.next()
            m = s.eat('mut')
            return ('mutref' if m else 'ref', s.type())
        if s.eat('('):
            ts = []
            while not s.at(')'):
                ts.append(s.type())
                if not s.eat(','): break
            s.need(')'); return ('tuple', ts)
        if s.eat('['):
            t = s.type(); s.need(']'); return ('slice', t)
        if s.eat('impl'): return ('impl', s.type())
        name = s.ident()
        while s.eat('::'): name = s.ident() if name in ('crate', 'fmt', 'self') else name + '::' + s.ident()
        args = []
        if s.at('<'):
            s.next()
            while True:
                if s.peek().k == 'life': s.next()
                elif s.peek(1).v == '=':            # Item = T
                    s.ident(); s.need('='); args.append(s.type())
                else: args.append(s.type())
                if not s.eat(','): break
            s.close_angle()
        return ('path', name, args)
    def close_angle(s):
        if s.at('>>'): s.t[s.i] = Tok('op', '>', s.peek().line)
        else: s.need('>')
    # ---- items
    def file(s):
        items, skipped = [], []
        while s.peek().k != 'eof':
            line = s.peek().line; attrs = []
            while s.at('#'): attrs.append(s.skip_attr())
            pub = s.eat('pub')
            if any('cfg(test)' in a or 'cfg(v5)' in a for a in attrs):
                while not s.at('{', ';'): s.next()
                if s.at('{'): s.skip_balanced('{', '}')
                else: s.next()
                skipped.append((line, 'conditional item ' + ' '.join(attrs))); continue
            if s.at('use', 'mod', 'extern'):
                while not s.eat(';'): s.next()
                continue
            if s.at('struct', 'enum'):
                items.append(s.struct(line) if s.at('struct') else s.enum(line))
                items[-1].derives = set(re.findall(r'\w+', ' '.join(a for a in attrs if 'derive' in a))); continue
            if s.at('fn'): items.append(s.fn(None)); continue
            if s.at('impl'): s.impl(items, skipped); continue
            raise SyntaxError(f'{s.path}:{line}: item {s.peek()}')
        return items, skipped
    def struct(s, line):
        s.need('struct'); name = s.ident(); fs = []
        if s.eat(';'): return Node('struct', line, name=name, fields=[], unit=True)
        s.need('{')
        while not s.eat('}'):
            while s.at('#'): s.skip_attr()
            s.eat('pub'); f = s.ident(); s.need(':'); fs.append((f, s.type()))
            if not s.eat(','): s.need('}'); break
        return Node('struct', line, name=name, fields=fs, unit=False)
    def enum(s, line):
        s.need('enum'); name = s.ident(); vs = []; s.need('{'); d = -1
        while not s.eat('}'):
            v = s.ident(); arg = None
            if s.eat('('): arg = s.type(); s.need(')')
            if s.eat('='): d = intval(s.next().v)
            else: d += 1
            vs.append((v, arg, d))
            if not s.eat(','): s.need('}'); break
        return Node('enum', line, name=name, variants=vs)
    def impl(s, items, skipped):
        line = s.peek().line; s.need('impl'); t = s.type(); trait = None
        if s.eat('for'): trait, t = t, s.type()
        if trait and trait[1] in ('Debug', 'Display'):
            items.append(s.fmt_impl(line, trait[1], t[1])); return
        if trait and trait[1] == 'PartialEq':
            items.append(s.eq_impl(line, t[1])); return
        if trait and trait[1] == 'Clone':
            items.append(s.clone_impl(line, t[1])); return
        if trait and trait[1] != 'TryFrom': raise SyntaxError(f'{s.path}:{line}: impl {trait}')
        s.need('{')
        while not s.eat('}'):
            while s.at('#'): s.skip_attr()
            s.eat('pub')
            if s.at('type'):
                while not s.eat(';'): s.next()
                continue
            items.append(s.fn(t[1]))
    def fmt_impl(s, line, trait, owner):
        s.need('{')
        for w in ('fn', 'fmt', '(', '&', 'self', ',', 'f', ':', '&', 'mut'): s.need(w)
        assert s.type()[1] == 'Formatter'
        s.need(')'); s.need('->'); assert s.type()[1] == 'Result'; s.need('{')
        for w in ('write', '!', '(', 'f', ','): s.need(w)
        t = s.next(); assert t.k == 'str' and '\\' not in t.v; args = []
        while s.eat(','):
            if s.at(')'): break
            args.append(s.expr())
        s.need(')'); s.need('}'); end = s.peek().line; s.need('}')
        return Node('fmt', line, trait=trait, owner=owner, text=t.v[1:-1], args=args, end=end)
    def eq_impl(s, line, owner):
        s.need('{')
        for w in ('fn', 'eq', '(', '&', 'self', ',', 'other', ':', '&'): s.need(w)
        assert s.type()[1] in ('Self', owner)
        s.need(')'); s.need('->'); assert s.type()[1] == 'bool'; s.need('{')
        e = s.expr(); s.need('}'); end = s.peek().line; s.need('}')
        return Node('eqimpl', line, owner=owner, e=e, end=end)
    def clone_impl(s, line, owner):
        s.need('{')
        for w in ('fn', 'clone', '(', '&', 'self'): s.need(w)
        s.need(')'); s.need('->'); assert s.type()[1] in ('Self', owner); s.need('{')
        e = s.expr(); s.need('}'); end = s.peek().line; s.need('}')
        return Node('cloneimpl', line, owner=owner, e=e, end=end)
    def fn(s, owner):
        line = s.peek().line; s.need('fn'); name = s.ident(); gen = {}
        if s.eat('<'):
            while not s.at('>'):
                g = s.ident(); gen[g] = None
                if s.eat(':'): gen[g] = s.type()
                if not s.eat(','): break
            s.need('>')
        s.need('('); params, selfk = [], None
        while not s.at(')'):
            if s.at('&') and s.peek(1).v == 'self': s.next(); s.next(); selfk = 'ref'
            elif s.at('&') and s.peek(1).v == 'mut' and s.peek(2).v == 'self':
                s.next(); s.next(); s.next(); selfk = 'mut'
            else:
                mut = s.eat('mut'); p = s.ident(); s.need(':'); params.append((p, mut, s.type()))
            if not s.eat(','): break
        s.need(')')
        ret = s.type() if s.eat('->') else ('tuple', [])
        if s.eat('where'):
            while not s.at('{'):
                g = s.ident(); s.need(':'); gen[g] = s.type(); s.eat(',')
        body = s.block()
        return Node('fn', line, name=name, owner=owner, gen=gen, params=params, selfk=selfk,
                    ret=ret, body=body, end=s.t[s.i - 1].line)
    # ---- statements
    def block(s):
        line = s.peek().line; s.need('{'); stmts, tail = [], None
        while not s.eat('}'):
            if s.eat(';'): continue
            l = s.peek().line
            if s.eat('let'):
                p = s.pat(); ty = s.type() if s.eat(':') else None
                s.need('='); e = s.expr(); s.need(';')
                stmts.append(Node('let', l, pat=p, tyann=ty, e=e)); continue
            e = s.expr(stmt=True)
            if s.eat(';'): stmts.append(Node('expr', l, e=e, semi=True))
            elif s.at('}'): tail = e
            elif e.kind in ('if', 'iflet', 'match', 'while', 'for', 'block'):
                stmts.append(Node('expr', l, e=e, semi=False))
            else: raise SyntaxError(f'{s.path}:{s.peek().line}: after statement {s.peek()}')
        return Node('block', line, stmts=stmts, tail=tail)
    # ---- patterns
    def pat(s):
        ps = [s.pat1()]
        while s.eat('|'): ps.append(s.pat1())
        return ps[0] if len(ps) == 1 else Node('por', ps[0].line, alts=ps)
    def pat1(s):
        l = s.peek().line
        if s.eat('&'): return s.pat1()
        if s.eat('ref'): return s.pat1()
        if s.eat('_'): return Node('pwild', l)
        if s.peek().k == 'int': return Node('pint', l, v=intval(s.next().v))
        if s.eat('('):
            ps = []
            while not s.at(')'):
                ps.append(s.pat())
                if not s.eat(','): break
            s.need(')'); return Node('ptup', l, ps=ps)
        mut = s.eat('mut'); path = [s.ident()]
        while s.eat('::'): path.append(s.ident())
        if s.eat('('):
            a = s.pat(); s.need(')'); return Node('pctor', l, path=path, arg=a)
        if len(path) > 1 or path[0] == 'None': return Node('pctor', l, path=path, arg=None)
        if path[0] == '_': return Node('pwild', l)
        return Node('pvar', l, name=path[0], mut=mut)
    # ---- expressions
    LEVELS = [['||'], ['&&'], ['==', '!=', '<', '>', '<=', '>='], ['|'], ['^'], ['&'],
              ['<<', '>>'], ['+', '-'], ['*', '/', '%']]
    def expr(s, ns=False, stmt=False):
        l = s.peek().line
        if stmt and s.at('if', 'match', 'while', 'for', '{'):
            return s.primary(ns)
        lhs = s.bin(0, ns)
        if s.at('=', '+=', '-=', '|=', '/=', '&=', '*=', '%='):
            op = s.next().v; r = s.expr(ns)
            return Node('assign', l, op=op[:-1], lhs=lhs, rhs=r)
        return lhs
    def bin(s, lv, ns):
        if lv == len(s.LEVELS): return s.cast(ns)
        l = s.peek().line; a = s.bin(lv + 1, ns)
        while s.at(*s.LEVELS[lv]):
            op = s.next().v; b = s.bin(lv + 1, ns)
            a = Node('bin', l, op=op, a=a, b=b)
        return a
    def cast(s, ns):
        l = s.peek().line; e = s.unary(ns)
        while s.eat('as'): e = Node('cast', l, e=e, to=s.type())
        return e
    def unary(s, ns):
        l = s.peek().line
        if s.eat('!'): return Node('not', l, e=s.unary(ns))
        if s.eat('*'): return s.unary(ns)                       # *x : references are values
        if s.at('&') :
            s.next(); m = s.eat('mut'); e = s.unary(ns)
            return Node('mutref', l, e=e) if m else e
        return s.postfix(ns)
    def args(s):
        s.need('('); a = []
        while not s.at(')'):
            a.append(s.expr())
            if not s.eat(','): break
        s.need(')'); return a
    def postfix(s, ns):
        e = s.primary(ns)
        while True:
            l = s.peek().line
            if s.eat('?'): e = Node('try', l, e=e)
            elif s.eat('.'):
                n = s.ident()
                if s.at('::'):
                    s.next(); s.need('<'); s.type(); s.close_angle()
                if s.at('('): e = Node('method', l, recv=e, name=n, args=s.args())
                else: e = Node('field', l, e=e, name=n)
            elif s.at('['):
                s.next()
                if s.eat('..'):
                    hi = s.expr(); s.need(']'); e = Node('slice_to', l, e=e, hi=hi)
                else:
                    i = s.expr(); s.need(']'); e = Node('index', l, e=e, i=i)
            else: return e
    def primary(s, ns):
        t = s.peek(); l = t.line
        if t.k == 'int': s.next(); return Node('int', l, v=intval(t.v))
        if t.k == 'str': s.next(); return Node('str', l, v=t.v[1:-1])
        if t.k == 'chr': s.next(); return Node('chr', l, v=t.v[1:-1])
        if s.eat('('):
            es = []; comma = False
            while not s.at(')'):
                es.append(s.expr()); comma = s.eat(',')
                if not comma: break
            s.need(')')
            if len(es) == 1 and not comma: return Node('paren', l, e=es[0])
            return Node('tuple', l, es=es)
        if s.eat('['):
            es = []
            while not s.at(']'):
                es.append(s.expr())
                if not s.eat(','): break
            s.need(']'); return Node('array', l, es=es)
        if s.at('{'): return s.block()
        if s.eat('if'):
            if s.eat('let'):
                p = s.pat(); s.need('='); c = s.expr(ns=True); th = s.block(); el = s.else_()
                return Node('match', l, e=c, arms=[(p, None, th), (Node('pwild', l), None, el or Node('block', l, stmts=[], tail=None))], iflet=True)
            c = s.expr(ns=True); th = s.block(); el = s.else_()
            return Node('if', l, c=c, th=th, el=el)
        if s.eat('match'):
            e = s.expr(ns=True); s.need('{'); arms = []
            while not s.eat('}'):
                p = s.pat(); g = s.expr() if s.eat('if') else None
                s.need('=>'); b = s.expr()
                arms.append((p, g, b))
                if not s.eat(',') and b.kind != 'block' and not s.at('}'):
                    raise SyntaxError(f'{s.path}:{s.peek().line}: match arm')
            return Node('match', l, e=e, arms=arms, iflet=False)
        if s.eat('while'):
            c = s.expr(ns=True); return Node('while', l, c=c, body=s.block())
        if s.eat('for'):
            p = s.pat(); s.need('in'); e = s.expr(ns=True)
            return Node('for', l, pat=p, e=e, body=s.block())
        if s.eat('return'):
            if s.at(';', '}', ','): return Node('return', l, e=None)
            return Node('return', l, e=s.expr())
        if s.eat('break'): return Node('break', l)
        if s.eat('continue'): return Node('continue', l)
        if s.eat('|'):
            ps = []
            while not s.at('|'):
                ps.append(s.pat1())
                if not s.eat(','): break
            s.need('|'); return Node('closure', l, ps=ps, body=s.expr())
        if s.at('true', 'false'): return Node('bool', l, v=s.next().v)
        path = [s.ident()]
        while s.eat('::'):
            if s.at('<'): s.next(); s.type(); s.close_angle()
            else: path.append(s.ident())
        if s.at('!') and s.peek(1).v in ('(', '['):
            s.next(); o = s.next().v; es = []
            while not s.at(')', ']'):
                es.append(s.expr())
                if not s.eat(','): break
            s.next(); return Node('macro', l, name=path[0], es=es)
        if s.at('('): return Node('call', l, path=path, args=s.args())
        if s.at('{') and not ns and (path[-1][0].isupper()):
            s.next(); fs = []
            while not s.eat('}'):
                f = s.ident()
                fs.append((f, s.expr() if s.eat(':') else Node('var', l, name=f)))
                if not s.eat(','): s.need('}'); break
            return Node('struct_lit', l, path=path, fields=fs)
        if len(path) == 1 and path[0] != 'None' : return Node('var', l, name=path[0])
        return Node('path', l, path=path)
    def else_(s):
        if not s.eat('else'): return None
        if s.at('if'): return s.primary(False)
        return s.block()

def intval(v): return int(v.replace('_', ''), 0)

# ------------------------------------------------------------------ crate
class Adt:      # struct or enum of the crate, with the model's names for it
    pass
class Fn:
    pass

def srcmod(key, fname=None):
    if key == 'lib': return 'SrcLib'
    if key == 'topic': return 'SrcTopic'
    d, f = key.split('/')
    if f == 'mod':
        return f'Src{d.upper()}Mod' if fname in (None, 'read') else f'Src{d.upper()}Property'
    return f'Src{d.upper()}{CAMEL[f]}'
CAMEL = dict(connack='ConnAck', connect='Connect', disconnect='Disconnect', ping='Ping',
             puback='PubAck', pubcomp='PubComp', publish='Publish', pubrec='PubRec',
             pubrel='PubRel', suback='SubAck', subscribe='Subscribe', unsuback='UnsubAck',
             unsubscribe='Unsubscribe')

class Crate:
    def __init__(s, repo, theories):
        s.adts, s.fns, s.files, s.skipped, s.theories = {}, {}, {}, {}, theories
        s.models = {}
        root = os.path.join(repo, 'src')
        keys = ['lib', 'topic'] + [f'{d}/{f[:-3]}' for d in ('v4', 'v5')
                                   for f in sorted(os.listdir(os.path.join(root, d)))]
        for k in keys:
            p = os.path.join(root, k + '.rs')
            s.files[k], s.skipped[k] = Parser(lex(open(p).read()), f'src/{k}.rs').file()
            for it in s.files[k]:
                if it.kind in ('struct', 'enum'):
                    it.key = k; it.qual = (k, it.name); s.adts[it.qual] = it
        for k in keys:
            for it in s.files[k]:
                if it.kind == 'fn':
                    it.key = k; s.fns[(k, it.owner, it.name)] = it
                    s.signature(it)
        for a in s.adts.values(): s.model_names(a)
    def lookup_adt(s, key, name):
        if (key, name) in s.adts: return s.adts[(key, name)]
        d = key.split('/')[0]
        for (k, n), a in s.adts.items():
            if n == name and '/' in k and k.split('/')[0] == d: return a
        if ('lib', name) in s.adts: return s.adts[('lib', name)]
        raise KeyError(f'type {name} in {key}')
    def lookup_fn(s, key, name):
        d = key.split('/')[0]
        for k in (key, d + '/mod', 'lib'):
            if (k, None, name) in s.fns: return s.fns[(k, None, name)]
        raise KeyError(f'function {name} in {key}')
    def conv(s, t, key, owner, gen):
        c = lambda x: s.conv(x, key, owner, gen)
        if t[0] in ('ref', 'mutref'): return c(t[1])
        if t[0] == 'slice': return ('vec', c(t[1]))
        if t[0] == 'tuple': return UNIT if not t[1] else ('tup', [c(x) for x in t[1]])
        if t[0] == 'impl': return c(t[1])
        n, a = t[1], t[2]
        if n in gen and gen[n]: return c(gen[n])
        if n == 'Into': return c(a[0])
        if n == 'IntoIterator': return ('vec', c(a[0]))
        if n in ('String', 'str', 'Bytes', 'BytesMut'): return BSTR
        if n in ('Vec', 'Iter'): return ('vec', c(a[0]))
        if n == 'Option': return ('opt', c(a[0]))
        if n == 'Result': return ('res', c(a[0]))
        if n in ('u8', 'u16', 'u32', 'usize', 'i32'): return ('int', n)
        if n == 'bool': return BOOL
        if n == 'Self': return ('adt', s.lookup_adt(key, owner).qual)
        return ('adt', s.lookup_adt(key, n).qual)
    def signature(s, f):
        f.buf = None; f.owned = False; f.vals = []
        for p, mut, t in f.params:
            isb = t[0] == 'mutref' and t[1][0] == 'path' and t[1][1] in ('Bytes', 'BytesMut')
            own = mut and t[0] == 'path' and t[1] == 'Bytes'
            if isb or own:
                assert f.buf is None
                f.buf, f.owned = p, own
            else: f.vals.append((p, s.conv(t, f.key, f.owner, f.gen)))
        rt = s.conv(f.ret, f.key, f.owner, f.gen)
        f.result = rt[0] == 'res'
        f.rty = rt[1] if f.result else rt
        f.kind2 = 'W' if f.buf and not f.owned else 'O'
        f.selfty = ('adt', s.lookup_adt(f.key, f.owner).qual) if f.selfk else None
        f.unitself = bool(f.selfk) and s.adts[f.selfty[1]].kind == 'struct' and s.adts[f.selfty[1]].unit
        f.cname = (f.owner + '_' if f.owner else '') + f.name
        f.cmod = srcmod(f.key, f.name if f.key.endswith('mod') else None)
        f.calls, f.fuel = [], False
    # names of the hand-written model's records and constructors
    def model_names(s, a):
        a.ctors, a.projs, a.mk = {}, [], None
        d = a.key.split('/')
        cands = ['Base', 'Lib'] if len(d) == 1 else ([f'{d[0].upper()}Mod', f'{d[0].upper()}Property']
                 if d[1] == 'mod' else [f'{d[0].upper()}{CAMEL[d[1]]}'])
        for m in cands:
            p = os.path.join(s.theories, m + '.v')
            if not os.path.exists(p): continue
            txt = re.sub(r'\(\*.*?\*\)', '', open(p).read(), flags=re.S)
            if a.kind == 'struct':
                r = re.search(r'Record %s := (\w+) \{(.*?)\}\.' % a.name, txt, re.S)
                if not r: continue
                projs = [x.split(':')[0].strip() for x in r.group(2).split(';') if x.strip()]
                assert len(projs) == len(a.fields), a.name
                for pr, (f, _) in zip(projs, a.fields):
                    assert pr == f or pr.endswith('_' + f), (a.name, pr, f)
                a.mk = m + '.' + r.group(1); a.projs = [m + '.' + x for x in projs]; a.mty = m + '.' + a.name
                return
            r = re.search(r'Inductive %s :=(.*?)\.\s' % a.name, txt, re.S)
            if not r: continue
            cs = [x.split()[0] for x in r.group(1).split('|') if x.strip()]
            assert len(cs) == len(a.variants), (a.name, cs)
            for c, (v, _, _) in zip(cs, a.variants):
                assert c == v or c.endswith('_' + v), (a.name, c, v)
                a.ctors[v] = m + '.' + c
            a.mty = m + '.' + a.name
            return
        a.mty = None

# ------------------------------------------------------------------ type inference
IDENT_METHODS = {'iter', 'into_iter', 'collect', 'to_vec', 'freeze', 'as_str', 'as_bytes', 'into', 'by_ref'}
BUF_METHODS = dict(advance=([USZ], UNIT), put_u8=([U8], UNIT), put_u16=([U16], UNIT), put_u32=([U32], UNIT),
                   put_slice=([BSTR], UNIT), extend_from_slice=([BSTR], UNIT), split_to=([USZ], BSTR),
                   get_u8=([], U8), get_u16=([], U16), get_u32=([], U32), len=([], USZ),
                   is_empty=([], BOOL), has_remaining=([], BOOL), iter=([], BSTR))

class Infer:
    def __init__(s, crate, f):
        s.c, s.f = crate, f
        env = dict(f.vals)
        if f.selfk: env['self'] = f.selfty
        s.run(f)
    def run(s, f):
        env = dict(f.vals)
        if f.selfk: env['self'] = f.selfty
        t = s.ex(f.body, env)
        unify(t, ('res', f.rty) if f.result else f.rty, f'{f.key} {f.name} result')
    def w(s, e): return f'src/{s.f.key}.rs:{e.line}'
    def adt(s, name): return s.c.lookup_adt(s.f.key, s.f.owner if name == 'Self' else name)
    def variant(s, path):
        path = [x for x in path if x != 'crate']
        a = s.adt(path[0])
        for v, arg, d in a.variants:
            if v == path[1]:
                return a, v, (s.c.conv(arg, a.key, None, {}) if arg else None)
        raise KeyError(path)
    def pat(s, p, t, env):
        if p.kind == 'pvar': env[p.name] = t
        elif p.kind == 'pwild': pass
        elif p.kind == 'pint': unify(t, Var(True), s.w(p))
        elif p.kind == 'ptup':
            ts = [Var() for _ in p.ps]; unify(t, ('tup', ts), s.w(p))
            for q, x in zip(p.ps, ts): s.pat(q, x, env)
        elif p.kind == 'por':
            for q in p.alts: s.pat(q, t, env)
        elif p.kind == 'pctor':
            if p.path == ['Some']: x = Var(); unify(t, ('opt', x), s.w(p)); s.pat(p.arg, x, env)
            elif p.path == ['None']: unify(t, ('opt', Var()), s.w(p))
            elif p.path == ['Ok']: x = Var(); unify(t, ('stdres', x), s.w(p)); s.pat(p.arg, x, env)
            elif p.path == ['Err']: unify(t, ('stdres', Var()), s.w(p)); s.pat(p.arg, UNIT, env)
            else:
                a, v, at = s.variant(p.path); p.adt, p.v = a, v
                unify(t, ('adt', a.qual), s.w(p))
                if p.arg: s.pat(p.arg, at, env)
        else: raise NotImplementedError(p)
        p.ty = t
    def ex(s, e, env):
        t = getattr(s, 'x_' + e.kind)(e, env); e.ty = t; return t
    def x_block(s, b, env):
        env2 = env.copy(); b.declares = []
        never = False
        for st in b.stmts:
            if st.kind == 'let':
                t = s.ex(st.e, env2)
                if st.tyann: unify(t, s.c.conv(st.tyann, s.f.key, s.f.owner, s.f.gen), s.w(st))
                s.pat(st.pat, t, env2)
            else:
                t = s.ex(st.e, env2)
                if st.e.kind in ('return', 'break', 'continue'): never = True
        if b.tail is not None: return s.ex(b.tail, env2)
        return Var() if never else UNIT
    def x_paren(s, e, env): return s.ex(e.e, env)
    def x_mutref(s, e, env): return s.ex(e.e, env)
    def x_int(s, e, env): return Var(True)
    def x_bool(s, e, env): return BOOL
    def x_str(s, e, env): return BSTR
    def x_chr(s, e, env): return ('char',)
    def x_tuple(s, e, env):
        if not e.es: return UNIT
        return ('tup', [s.ex(x, env) for x in e.es])
    def x_array(s, e, env):
        t = Var()
        for x in e.es: unify(t, s.ex(x, env), s.w(e))
        return ('vec', t)
    def x_macro(s, e, env):
        if e.name == 'vec': return s.x_array(e, env)
        if e.name == 'dbg': s.ex(e.es[0], env); return UNIT
        raise NotImplementedError(e)
    def x_var(s, e, env):
        if e.name in env: return env[e.name]
        if e.name == s.f.buf: return BSTR
        raise KeyError(f'{s.w(e)}: {e.name}')
    def x_path(s, e, env):
        if e.path == ['None']: return ('opt', Var())
        a, v, at = s.variant(e.path); e.adt, e.v = a, v
        return ('adt', a.qual)
    def x_field(s, e, env):
        t = res(s.ex(e.e, env)); a = s.c.adts[t[1]]
        for i, (f, ft) in enumerate(a.fields):
            if f == e.name: e.idx, e.adt = i, a; return s.c.conv(ft, a.key, a.name, {})
        raise KeyError(e.name)
    def x_struct_lit(s, e, env):
        a = s.adt(e.path[0]); e.adt = a; d = dict(a.fields)
        assert sorted(d) == sorted(f for f, _ in e.fields), s.w(e)
        for f, x in e.fields:
            unify(s.ex(x, env), s.c.conv(d[f], a.key, a.name, {}), s.w(e) + ' field ' + f)
        return ('adt', a.qual)
    def x_not(s, e, env): unify(s.ex(e.e, env), BOOL, s.w(e)); return BOOL
    def x_cast(s, e, env):
        s.ex(e.e, env); return s.c.conv(e.to, s.f.key, s.f.owner, s.f.gen)
    def x_bin(s, e, env):
        a, b = s.ex(e.a, env), s.ex(e.b, env)
        if e.op in ('&&', '||'): unify(a, BOOL, s.w(e)); unify(b, BOOL, s.w(e)); return BOOL
        if e.op in ('<<', '>>'): return a
        unify(a, b, s.w(e))
        return BOOL if e.op in ('==', '!=', '<', '>', '<=', '>=') else a
    def x_assign(s, e, env):
        r = s.ex(e.rhs, env)
        if e.lhs.kind == 'index':
            assert e.lhs.e.name == s.f.buf; unify(s.ex(e.lhs.i, env), USZ); unify(r, U8); return UNIT
        unify(s.ex(e.lhs, env), r, s.w(e)); return UNIT
    def x_slice_to(s, e, env): unify(s.ex(e.hi, env), USZ); return s.ex(e.e, env)
    def x_if(s, e, env):
        unify(s.ex(e.c, env), BOOL, s.w(e)); t = s.ex(e.th, env)
        if e.el: unify(t, s.ex(e.el, env), s.w(e))
        else: unify(t, UNIT, s.w(e))
        return t
    def x_match(s, e, env):
        t = s.ex(e.e, env); r = Var()
        for p, g, b in e.arms:
            env2 = env.copy(); s.pat(p, t, env2)
            if g: unify(s.ex(g, env2), BOOL, s.w(g))
            unify(r, s.ex(b, env2), s.w(b))
        return r
    def x_while(s, e, env):
        unify(s.ex(e.c, env), BOOL); unify(s.ex(e.body, env), UNIT, s.w(e)); s.f.fuel = True; return UNIT
    def x_for(s, e, env):
        x = Var(); unify(s.ex(e.e, env), ('vec', x), s.w(e)); env2 = env.copy(); s.pat(e.pat, x, env2)
        unify(s.ex(e.body, env2), UNIT, s.w(e)); return UNIT
    def x_return(s, e, env):
        unify(s.ex(e.e, env), ('res', s.f.rty) if s.f.result else s.f.rty, s.w(e)); return Var()
    def x_break(s, e, env): return Var()
    def x_continue(s, e, env): return Var()
    def x_try(s, e, env):
        x = Var(); unify(s.ex(e.e, env), ('res', x), s.w(e)); return x
    def userfn(s, e, f, args, env):
        e.fn = f; s.f.calls.append(f); e.vals = []
        ps = list(f.params)
        assert len(ps) == len(args), s.w(e)
        vt = dict(f.vals)
        for (p, mut, _), x in zip(ps, args):
            t = s.ex(x, env)
            if p == f.buf and not f.owned:
                y = x.e if x.kind == 'mutref' else x
                assert y.kind == 'var' and y.name == s.f.buf, s.w(e)
            elif p == f.buf: unify(t, BSTR); e.vals.append(x)
            else: unify(t, vt[p], s.w(e)); e.vals.append(x)
        return ('res', f.rty) if f.result else f.rty
    def x_call(s, e, env):
        p = [x for x in e.path if x != 'crate']
        if p == ['Ok']: return ('res', s.ex(e.args[0], env))
        if p == ['Err']: unify(s.ex(e.args[0], env), ('adt', ('lib', 'Error')), s.w(e)); return ('res', Var())
        if p == ['Some']: return ('opt', s.ex(e.args[0], env))
        if p == ['String', 'new']: return BSTR
        if p == ['Vec', 'new']: return ('vec', Var())
        if p == ['Vec', 'with_capacity']: s.ex(e.args[0], env); return ('vec', Var())
        if p == ['Bytes', 'from']: t = s.ex(e.args[0], env); unify(t, BSTR); return BSTR
        if p == ['String', 'from_utf8']: unify(s.ex(e.args[0], env), BSTR); return ('stdres', BSTR)
        if len(p) == 1: return s.userfn(e, s.c.lookup_fn(s.f.key, p[0]), e.args, env)
        a = s.adt(p[0])
        if (a.key, a.name, p[1]) in s.c.fns: return s.userfn(e, s.c.fns[(a.key, a.name, p[1])], e.args, env)
        a, v, at = s.variant(p); e.adt, e.v = a, v
        unify(s.ex(e.args[0], env), at, s.w(e)); return ('adt', a.qual)
    def x_method(s, e, env):
        r = e.recv
        if r.kind == 'var' and r.name == s.f.buf and r.name not in env:
            ats, rt = BUF_METHODS[e.name]; e.onbuf = True
            for x, t in zip(e.args, ats): unify(s.ex(x, env), t, s.w(e))
            return rt
        e.onbuf = False
        t = res(s.ex(r, env)); n = e.name
        if t[0] == 'adt':
            a = s.c.adts[t[1]]; return s.userfn(e, s.c.fns[(a.key, a.name, n)], e.args, env)
        if n == 'try_into': return ('res', Var())
        if t[0] == 'opt':
            if n in ('is_some', 'is_none'): return BOOL
            if n == 'unwrap': return t[1]
        if t[0] == 'vec':
            if n in IDENT_METHODS: return t
            if n == 'len': return USZ
            if n in ('is_empty', 'contains'): 
                for x in e.args: s.ex(x, env)
                return BOOL
            if n == 'split': s.ex(e.args[0], env); return ('vec', BSTR)
            if n == 'split_last': return ('opt', ('tup', [t[1], t]))
            if n == 'next': return ('opt', t[1])
            if n == 'push': unify(s.ex(e.args[0], env), t[1], s.w(e)); return UNIT
            if n == 'fold':
                it = s.ex(e.args[0], env); c = e.args[1]; env2 = env.copy()
                s.pat(c.ps[0], it, env2); s.pat(c.ps[1], t[1], env2)
                unify(s.ex(c.body, env2), it, s.w(e)); c.ty = UNIT; return it
            if n == 'map':
                c = e.args[0]; env2 = env.copy(); s.pat(c.ps[0], t[1], env2)
                return ('vec', s.ex(c.body, env2))
        raise NotImplementedError(f'{s.w(e)}: .{n} on {show(t)}')

# ------------------------------------------------------------------ analysis
def children(e):
    for v in e.__dict__.values():
        if isinstance(v, Node): yield v
        elif isinstance(v, list):
            for x in v:
                if isinstance(x, Node): yield x
                elif isinstance(x, tuple):
                    for y in x:
                        if isinstance(y, Node): yield y

def is_ret_err(e): return e.kind == 'return' and e.e is not None and e.e.kind == 'call' and e.e.path == ['Err']
def has_ctl(e, loop=False):
    """a `return` of a value, `break` or `continue` that leaves e"""
    if e.kind == 'return': return not is_ret_err(e)
    if e.kind in ('break', 'continue'): return not loop
    if e.kind == 'fn': return False
    inner = loop or e.kind in ('for', 'while')
    return any(has_ctl(c, inner) for c in children(e) if c.kind not in ('struct', 'enum', 'fn'))

def patvars(p):
    if p.kind == 'pvar': return [p.name]
    if p.kind == 'ptup': return [v for q in p.ps for v in patvars(q)]
    if p.kind == 'pctor': return patvars(p.arg) if p.arg else []
    if p.kind == 'por': return patvars(p.alts[0])
    return []

def exhaustive(ps, ty, crate):
    ps = [q for p in ps for q in (p.alts if p.kind == 'por' else [p])]
    irr = lambda p: p.kind in ('pvar', 'pwild') or p.kind == 'ptup' and all(irr(q) for q in p.ps)
    if any(irr(p) for p in ps): return True
    t = res(ty)
    have = {p.path[-1] for p in ps if p.kind == 'pctor' and (p.arg is None or irr(p.arg))}
    if isinstance(t, Var) or t[0] == 'int': return False
    if t[0] == 'opt': return have >= {'Some', 'None'}
    if t[0] == 'stdres': return have >= {'Ok', 'Err'}
    if t[0] == 'adt': return have >= {v for v, _, _ in crate.adts[t[1]].variants}
    return False

def root(e):
    while e.kind in ('field', 'paren'): e = e.e
    return e.name if e.kind == 'var' else None

def assigned(e, local=frozenset()):
    """variables declared outside e that e assigns, in order of first assignment"""
    out = []
    def add(xs):
        for x in xs:
            if x not in out: out.append(x)
    if e.kind == 'block':
        loc = set(local)
        for st in e.stmts:
            add(assigned(st.e, loc))
            if st.kind == 'let': loc |= set(patvars(st.pat))
        if e.tail is not None: add(assigned(e.tail, loc))
        return out
    if e.kind == 'assign' and e.lhs.kind != 'index':
        add(assigned(e.rhs, local))
        if root(e.lhs) not in local: add([root(e.lhs)])
        return out
    if e.kind == 'method' and e.name in ('push', 'next') and not getattr(e, 'onbuf', False):
        for x in e.args: add(assigned(x, local))
        if root(e.recv) not in local: add([root(e.recv)])
        return out
    if e.kind == 'match':
        add(assigned(e.e, local))
        for p, g, b in e.arms:
            l2 = set(local) | set(patvars(p))
            if g: add(assigned(g, l2))
            add(assigned(b, l2))
        return out
    if e.kind == 'for':
        add(assigned(e.e, local)); add(assigned(e.body, set(local) | set(patvars(e.pat)))); return out
    if e.kind == 'closure':
        return assigned(e.body, set(local) | {v for p in e.ps for v in patvars(p)})
    for c in children(e):
        if c.kind not in ('struct', 'enum', 'fn') and not c.kind.startswith('p') or c.kind == 'paren': add(assigned(c, local))
    return out

# ------------------------------------------------------------------ emission
def paren(t):
    if re.fullmatch(r"[\w.']+|\(.*\)|\[.*\]", t, re.S):
        if t[0] not in '([': return t
        d = 0                                   # one balanced group?
        for i, ch in enumerate(t):
            d += ch in '([' ; d -= ch in ')]'
            if d == 0 and i < len(t) - 1: break
        else: return t
    return '(' + t + ')'
def tup(xs): return 'tt' if not xs else xs[0] if len(xs) == 1 else '(' + ', '.join(xs) + ')'
def ind(t): return '\n'.join('  ' + l for l in t.split('\n'))
COQ_KEYWORDS = {'at', 'as', 'in', 'for', 'end', 'fun', 'match', 'return', 'with', 'then', 'else', 'let', 'if'}

class Emit:
    def __init__(s, crate, f): s.c, s.f, s.n = crate, f, 0
    def fresh(s): s.n += 1; return f't{s.n}'
    def w(s, e): return f'src/{s.f.key}.rs:{e.line}'
    # types
    def ty(s, t):
        t = res(t)
        if isinstance(t, Var): return 'N' if t.isint else '_'
        k = t[0]
        if k == 'int': return 'N'
        if k == 'bool': return 'bool'
        if k == 'unit': return 'unit'
        if k == 'vec': return f'list {paren(s.ty(t[1]))}'
        if k == 'opt': return f'option {paren(s.ty(t[1]))}'
        if k == 'tup': return '(' + ' * '.join(paren(s.ty(x)) for x in t[1]) + ')'
        if k == 'adt': return s.c.adts[t[1]].mty
        raise NotImplementedError(t)
    def intkind(s, t, e):
        t = res(t)
        if isinstance(t, Var): return 'i32'        # unconstrained integer literal
        assert t[0] == 'int', s.w(e)
        return t[1]
    # function
    def fn(s):
        f = s.f
        s.tail_ret = lambda e: s.T(e)
        s.ctx_return = s.T
        s.ctx_break = s.ctx_continue = None
        if f.selfk == 'mut':
            body = s.T(f.body)
        else: body = s.T(f.body)
        ps = []
        if f.fuel: ps.append('(fuel : nat)')
        if f.selfk and not f.unitself: ps.append(f'(self : {s.ty(f.selfty)})')
        for p, mut, t in f.params:
            if p == f.buf:
                if f.owned: ps.append(f'({p} : list N)')
            else: ps.append(f'({p} : {s.ty(dict(f.vals)[p])})')
        rt = s.ty(f.rty)
        head = f'(** src/{f.key}.rs:{f.line}-{f.end} `{(f.owner + "::") if f.owner else ""}{f.name}` *)\n'
        head += f'Definition {f.cname}' + ''.join(' ' + p for p in ps)
        if f.kind2 == 'W': return head + f' : writer {paren(rt)} :=\n{ind(body)}.\n'
        start = f.buf if f.owned else '[]'
        return head + f' : outcome {paren(rt)} :=\n  run (\n{ind(ind(body))}) {start}.\n'
    # tail position
    def T(s, e):
        if e.kind == 'paren': return s.T(e.e)
        if e.kind == 'block': return s.block(e, None, tail=True)
        if e.kind == 'if' and e.el is not None: return s.branch(e, None, tail=True)
        if e.kind == 'match': return s.branch(e, None, tail=True)
        if e.kind == 'return': return s.ctx_return(e.e)
        if s.f.result:
            if e.kind == 'call' and e.path == ['Ok']: return s.E(e.args[0], lambda a: f'wret {paren(a)}')
            if e.kind == 'call' and e.path == ['Err']: return s.E(e.args[0], lambda a: f'werr {paren(a)}')
            return s.M(e, lambda m: m)
        return s.E(e, lambda a: f'wret {paren(a)}')
    # a computation that yields Result: gives the monadic text
    def M(s, e, k):
        if e.kind == 'paren': return s.M(e.e, k)
        if e.kind in ('call', 'method') and getattr(e, 'fn', None):
            recv = [e.recv] if e.kind == 'method' else []
            if e.fn.unitself: recv = []
            return s.Es(recv + e.vals, lambda xs: k(s.callm(e.fn, xs)))
        if e.kind == 'method' and e.name == 'try_into':
            t = res(res(e.ty)[1]); a = s.c.adts[t[1]]
            fn = s.c.fns[(a.key, a.name, 'try_from')]
            return s.E(e.recv, lambda x: k(s.callm(fn, [x])))
        raise NotImplementedError(f'{s.w(e)}: Result expression {e.kind}')
    def callm(s, fn, xs):
        q = (fn.cmod + '.' if fn.cmod != s.f.cmod else '') + fn.cname
        t = ' '.join([q] + (['fuel'] if fn.fuel else []) + [paren(x) for x in xs])
        return t if fn.kind2 == 'W' else f'lift {paren(t)}'
    def Es(s, es, k):
        if not es: return k([])
        return s.E(es[0], lambda a: s.Es(es[1:], lambda r: k([a] + r)))
    def bind(s, m, k, hint=None, unit=False):
        if unit: return f'{s.pm(m)} ;;w\n' + k('tt')
        x = hint or s.fresh()
        return f'{x} <-w {s.pm(m)} ;;\n' + k(x)
    def pm(s, m): return m if '\n' not in m else f'(\n{ind(m)})'
    # value position: evaluate e, pass an atom to k
    def E(s, e, k, hint=None):
        return getattr(s, 'e_' + e.kind)(e, k, hint)
    def e_paren(s, e, k, h): return s.E(e.e, k, h)
    def e_mutref(s, e, k, h): return s.E(e.e, k, h)
    def e_int(s, e, k, h): return k(str(e.v))
    def e_bool(s, e, k, h): return k(e.v)
    def e_str(s, e, k, h): return k('[' + '; '.join(str(b) for b in e.v.encode()) + ']')
    def e_chr(s, e, k, h):
        assert ord(e.v) < 128, s.w(e)               # byte-level `contains`/`split`
        return k(str(ord(e.v)))
    def e_tuple(s, e, k, h): return s.Es(e.es, lambda xs: k(tup(xs)))
    def e_array(s, e, k, h): return s.Es(e.es, lambda xs: k('[' + '; '.join(xs) + ']'))
    def e_macro(s, e, k, h):
        if e.name == 'vec': return s.e_array(e, k, h)
        return s.E(e.es[0], lambda a: f'dbg {paren(a)} ;;w\n' + k('tt'))
    def e_var(s, e, k, h):
        if e.name == s.f.buf: return s.bind('get', k, h)
        return k(e.name)
    def e_path(s, e, k, h):
        if e.path == ['None']: return k('None')
        return k(e.adt.ctors[e.v])
    def e_field(s, e, k, h):
        return s.E(e.e, lambda a: k(f'({e.adt.projs[e.idx]} {paren(a)})'))
    def e_struct_lit(s, e, k, h):
        def done(xs):
            d = dict(zip([f for f, _ in e.fields], xs))
            return k('(' + ' '.join([e.adt.mk] + [paren(d[f]) for f, _ in e.adt.fields]) + ')')
        def go(fs, acc):
            if not fs: return done(acc)
            (f, x) = fs[0]
            return s.E(x, lambda a: go(fs[1:], acc + [a]), None)
        return go(e.fields, [])
    def e_not(s, e, k, h): return s.E(e.e, lambda a: k(f'(negb {paren(a)})'))
    def e_cast(s, e, k, h):
        src, to = res(e.e.ty), res(e.ty)
        def conv(a):
            if src == BOOL: return f'(bool_u8 {paren(a)})'
            if not isinstance(src, Var) and src[0] == 'adt':
                ad = s.c.adts[src[1]]; assert to == U8
                m = srcmod(ad.key, 'x' if ad.name == 'PropertyType' else None)
                q = (m + '.' if m != s.f.cmod else '') + f'{ad.name}_as_u8'
                return f'({q} {paren(a)})'
            width = dict(u8=8, u16=16, u32=32, usize=64)
            sk = s.intkind(src, e)
            if width[sk] <= width[to[1]]: return a
            return f'({paren(a)} mod {2 ** width[to[1]]})'
        return s.E(e.e, lambda a: k(conv(a)))
    def pure(s, e):
        t = s.E(e, lambda a: 'wret ' + paren(a))
        return t[5:] if t.startswith('wret ') else None
    def e_bin(s, e, k, h):
        if e.op in ('&&', '||'):
            b = s.pure(e.b)
            if b is not None:
                return s.E(e.a, lambda a: k(f'({paren(a)} {e.op} {paren(b)})'))
            def rest(a):
                m = s.E(e.b, lambda b: 'wret ' + paren(b))
                t = f'if {a} then (\n{ind(m)})\nelse wret false' if e.op == '&&' else f'if {a} then wret true\nelse (\n{ind(m)})'
                return s.bind(t, k, h)
            return s.E(e.a, rest)
        def fin(a, b): return s.binop(e, e.op, a, b, e.a.ty, k, h)
        return s.E(e.a, lambda a: s.E(e.b, lambda b: fin(a, b)))
    def binop(s, e, op, a, b, ty, k, h):
        t = res(ty)
        if op in ('==', '!='):
            if not isinstance(t, Var) and t[0] == 'vec': r = f'(bytes_eqb {paren(a)} {paren(b)})'; assert t == BSTR or res(t[1]) == U8
            elif not isinstance(t, Var) and t[0] == 'adt':
                ad = s.c.adts[t[1]]; assert ad.kind == 'enum' and all(x is None for _, x, _ in ad.variants)
                m = srcmod(ad.key); q = (m + '.' if m != s.f.cmod else '') + f'{ad.name}_as_u8'
                r = f'({q} {paren(a)} =? {q} {paren(b)})'
            else: s.intkind(t, e); r = f'({a} =? {b})'
            return k(r if op == '==' else f'(negb {r})')
        kind = s.intkind(t, e)
        if op in ('<', '>', '<=', '>='):
            if op in ('>', '>='): a, b = b, a
            return k(f'({a} <? {b})' if op in '<>' else f'({a} <=? {b})')
        if op == '&': return k(f'(N.land {paren(a)} {paren(b)})')
        if op == '|': return k(f'(N.lor {paren(a)} {paren(b)})')
        if op in ('/', '%'):
            assert int(b) > 0, s.w(e)
            return k(f'({a} / {b})' if op == '/' else f'({a} mod {b})')
        if op == '>>': return s.bind(f'lift ({kind}_shr {paren(a)} {paren(b)})', k, h)
        if op == '<<': return s.bind(f'lift ({kind}_shl {paren(a)} {paren(b)})', k, h)
        if op in ('+', '-'):
            o = {'+': 'add', '-': 'sub'}[op]
            return s.bind(f'lift ({kind}_{o} {paren(a)} {paren(b)})', k, h)
        raise NotImplementedError(op)
    def setplace(s, e, val):
        """new value of the root variable of place e when e := val"""
        if e.kind == 'var': return val
        assert e.kind == 'field'
        a = e.adt; base = e.e
        old = s.pure(base); assert old is not None
        upd = '(' + ' '.join([a.mk] + [paren(val) if i == e.idx else f'({p} {paren(old)})' for i, p in enumerate(a.projs)]) + ')'
        return s.setplace(base, upd)
    def e_assign(s, e, k, h):
        if e.lhs.kind == 'index':
            return s.E(e.lhs.i, lambda i: s.E(e.rhs, lambda v: f'set_index {paren(i)} {paren(v)} ;;w\n' + k('tt')))
        x = root(e.lhs)
        def set_(v):
            nv = s.setplace(e.lhs, v)
            return k('tt') if nv == x else f'let {x} := {nv} in\n' + k('tt')
        if not e.op:
            return s.E(e.rhs, set_, x if e.lhs.kind == 'var' else None)
        def compound(v):
            lhs = s.pure(e.lhs)
            return s.binop(e, e.op, lhs, v, e.lhs.ty, set_, x if e.lhs.kind == 'var' else None)
        return s.E(e.rhs, compound)
    def e_slice_to(s, e, k, h):
        assert e.hi.kind == 'int'
        return s.E(e.e, lambda a: s.bind(f'lift (str_to {paren(a)} {e.hi.v})', k, h))
    def e_try(s, e, k, h):
        unit = res(e.ty) == UNIT
        return s.M(e.e, lambda m: s.bind(m, k, h, unit))
    def e_call(s, e, k, h):
        p = [x for x in e.path if x != 'crate']
        if p == ['Some']: return s.E(e.args[0], lambda a: k(f'(Some {paren(a)})'))
        if p in (['String', 'new'], ['Vec', 'new'], ['Vec', 'with_capacity']): return k('[]')
        if p == ['Bytes', 'from']: return s.E(e.args[0], k, h)
        if p == ['String', 'from_utf8']: return s.E(e.args[0], lambda a: k(f'(from_utf8 {paren(a)})'))
        if getattr(e, 'fn', None):
            assert not e.fn.result, s.w(e)
            return s.M(e, lambda m: s.bind(m, k, h, res(e.ty) == UNIT))
        if hasattr(e, 'adt'): return s.E(e.args[0], lambda a: k(f'({e.adt.ctors[e.v]} {paren(a)})'))
        raise NotImplementedError(e)
    def e_method(s, e, k, h):
        n = e.name
        if e.onbuf:
            def go(xs):
                if n in ('len', 'is_empty', 'has_remaining', 'iter'):
                    g = {'len': '(blen {})', 'is_empty': '(is_empty {})', 'has_remaining': '(has_remaining {})', 'iter': '{}'}[n]
                    return s.bind('get', lambda a: k(g.format(a)))
                if n in ('advance', 'split_to', 'get_u8', 'get_u16', 'get_u32'):
                    m = 'keep ' + paren(' '.join([n] + [paren(x) for x in xs]))
                else: m = ' '.join([n] + [paren(x) for x in xs])
                return s.bind(m, k, h, res(e.ty) == UNIT)
            return s.Es(e.args, go)
        if getattr(e, 'fn', None):
            assert not e.fn.result, s.w(e)
            return s.M(e, lambda m: s.bind(m, k, h, res(e.ty) == UNIT))
        if n in IDENT_METHODS: return s.E(e.recv, k, h)
        if n in ('len', 'is_empty', 'is_some', 'is_none'):
            f = 'blen' if n == 'len' else n
            return s.E(e.recv, lambda a: k(f'({f} {paren(a)})'))
        if n == 'contains': return s.Es([e.recv] + e.args, lambda x: k(f'(contains {paren(x[1])} {paren(x[0])})'))
        if n == 'split': return s.Es([e.recv] + e.args, lambda x: k(f'(split {paren(x[1])} {paren(x[0])})'))
        if n == 'split_last': return s.E(e.recv, lambda a: k(f'(split_last {paren(a)})'))
        if n == 'unwrap': return s.E(e.recv, lambda a: s.bind(f'lift (unwrap {paren(a)})', k, h))
        if n == 'next':
            x = root(e.recv); assert e.recv.kind == 'var'
            v = h or s.fresh()
            return f"let '({v}, {x}) := iter_next {x} in\n" + k(v)
        if n == 'push':
            x = root(e.recv)
            def p(a):
                old = s.pure(e.recv)
                return f'let {x} := {s.setplace(e.recv, f"({old} ++ [{a}])")} in\n' + k('tt')
            return s.E(e.args[0], p)
        if n in ('fold', 'map'):
            c = e.args[-1]; assert not assigned(c) and not has_ctl(c)
            body = s.E(c.body, lambda a: f'wret {paren(a)}')
            fun = '(fun ' + ' '.join(s.binder(p) for p in c.ps) + f' =>\n{ind(body)})'
            if n == 'map': return s.E(e.recv, lambda a: s.bind(f'map_ {fun} {paren(a)}', k, h))
            return s.Es([e.recv, e.args[0]], lambda x: s.bind(f'fold_ {fun} {paren(x[0])} {paren(x[1])}', k, h))
        raise NotImplementedError(f'{s.w(e)} .{n}')
    def e_return(s, e, k, h):
        if is_ret_err(e): return s.E(e.e.args[0], lambda a: f'werr {paren(a)}')
        return s.ctx_return(e.e)
    def e_break(s, e, k, h): return s.ctx_break()
    def e_continue(s, e, k, h): return s.ctx_continue()
    def e_block(s, e, k, h): return s.block(e, k)
    # blocks
    def block(s, b, k, tail=False):
        def go(i):
            if i == len(b.stmts):
                if b.tail is not None: return s.T(b.tail) if tail else s.E(b.tail, k)
                if tail: return 'wret tt'
                return k('tt')
            st = b.stmts[i]
            if st.kind == 'let':
                if st.pat.kind == 'pvar':
                    x = st.pat.name
                    def bound(a):
                        if a == x: return go(i + 1)
                        ann = ''
                        if st.e.kind in ('path', 'call') and (a in ('None', '[]')): ann = f' : {s.ty(st.e.ty)}'
                        return f'let {x}{ann} := {a} in\n' + go(i + 1)
                    return s.E(st.e, bound, x)
                p = s.pat(st.pat)
                return s.E(st.e, lambda a: f"let '{p} := {a} in\n" + go(i + 1))
            if st.e.kind in ('return', 'break', 'continue'): return s.E(st.e, None)
            return s.E(st.e, lambda a: go(i + 1))
        return go(0)
    # patterns
    def pat(s, p):
        if p.kind == 'pvar': return p.name
        if p.kind == 'pwild': return '_'
        if p.kind == 'pint': return str(p.v)
        if p.kind == 'ptup': return '(' + ', '.join(s.pat(q) for q in p.ps) + ')'
        if p.kind == 'por': return ' | '.join(s.pat(q) for q in p.alts)
        if p.kind == 'pctor':
            n = {'Some': 'Some', 'None': 'None', 'Ok': 'inl', 'Err': 'inr'}.get(p.path[0]) if len(p.path) == 1 else p.adt.ctors[p.v]
            return n if p.arg is None else f'{n} {paren(s.pat(p.arg))}'
        raise NotImplementedError(p)
    def binder(s, p):
        t = s.pat(p); return t if p.kind in ('pvar', 'pwild') else "'" + t
    def vbinder(s, vs):
        return '(_ : unit)' if not vs else vs[0] if len(vs) == 1 else "'" + tup(vs)
    # branching
    def arms(s, e, emit):
        """text of if/match, every leaf emitted by emit(body)"""
        if e.kind == 'if':
            def c(a):
                th = emit(e.th); el = emit(e.el if e.el is not None else Node('block', e.line, stmts=[], tail=None))
                return f'if {a} then (\n{ind(th)})\nelse (\n{ind(el)})'
            return s.E(e.c, c)
        def m(a):
            def rest(arms):
                p, g, b = arms[0]
                if g is None:
                    n = next((i for i, x in enumerate(arms) if x[1] is not None), len(arms))
                    rows = [f'| {s.pat(q)} =>\n{ind(ind(emit(y)))}' for q, _, y in arms[:n]]
                    if n < len(arms): rows.append(f'| _ =>\n{ind(ind(rest(arms[n:])))}')
                else:
                    gt = s.pure(g); assert gt is not None
                    els = rest(arms[1:])
                    rows = [f'| {s.pat(p)} =>\n{ind(ind(f"if {gt} then (" + chr(10) + ind(emit(b)) + ")" + chr(10) + "else (" + chr(10) + ind(els) + ")"))}']
                    if p.kind not in ('pvar', 'pwild'): rows.append(f'| _ =>\n{ind(ind(els))}')
                tried = [q for q, _, _ in arms] if not (g is None and n < len(arms)) else [Node('pwild')]
                if g is not None and p.kind not in ('pvar', 'pwild'): tried = [Node('pwild')]
                if not exhaustive(tried, e.e.ty, s.c):
                    s.unreach = True       # only values an earlier arm has taken get here
                    rows.append('| _ => unreachable')
                return f'match {a} with\n' + '\n'.join(rows) + '\nend'
            return rest(e.arms)
        return s.E(e.e, m)
    def branch(s, e, k, h=None, tail=False):
        if tail: return s.arms(e, s.T)
        if any(has_ctl(c) for c in children(e)) or (e.kind == 'match' and any(has_ctl(b) for _, _, b in e.arms)):
            return s.arms(e, lambda b: s.E(b, k))
        vs = assigned(e)
        if e.kind == 'if': scr = e.c
        else: scr = e.e
        assert not assigned(scr), s.w(e)
        unit = res(e.ty) == UNIT or isinstance(res(e.ty), Var)
        h = h or (s.fresh() if not unit else None)
        names = ([] if unit else [h]) + vs
        def leaf(b): return s.E(b, lambda a: f'wret {tup(([] if unit else [a]) + vs)}')
        # scrutinee effects first, then the branching itself
        e2 = e
        def after(a):
            sub = Node(e.kind, e.line, **{x: y for x, y in e.__dict__.items() if x not in ('kind', 'line', 'ty')})
            atom = Node('atom', e.line, t=a); atom.ty = scr.ty
            if e.kind == 'if': sub.c = atom
            else: sub.e = atom
            texts = []; s.unreach = False
            def lf(b):
                t = leaf(b); texts.append(t); return t
            t = s.arms(sub, lf)
            if texts and not s.unreach and all(x.startswith('wret ') for x in texts):
                pt = s.arms(sub, lambda b: leaf(b)[5:])
                if not names: return k('tt')
                return f'let {s.vbinder(names)} :=\n{ind(pt)} in\n' + k(h if not unit else 'tt')
            if not names: return f'(\n{ind(t)}) ;;w\n' + k('tt')
            return f'{s.vbinder(names)} <-w (\n{ind(t)}) ;;\n' + k(h if not unit else 'tt')
        return s.E(scr, after)
    def e_atom(s, e, k, h): return k(e.t)
    def e_if(s, e, k, h): return s.branch(e, k, h)
    def e_match(s, e, k, h): return s.branch(e, k, h)
    # loops
    def e_while(s, e, k, h):
        assert not has_ctl(e.body, True) and not any(has_ctl(c, False) for c in children(e.body)), s.w(e)
        vs = assigned(e.body); assert not assigned(e.c)
        c = s.E(e.c, lambda a: f'wret {paren(a)}')
        b = s.block(e.body, lambda a: f'wret {tup(vs)}')
        vb = s.vbinder(vs)
        pat = vb if vs else '_'
        return f'{pat} <-w while_ fuel\n  (fun {vb} =>\n{ind(ind(c))})\n  (fun {vb} =>\n{ind(ind(b))})\n  {tup(vs)} ;;\n' + k('tt')
    def e_for(s, e, k, h):
        vs = assigned(e.body, set(patvars(e.pat))); vb = s.vbinder(vs)
        pb = s.binder(e.pat)
        if not any(has_ctl(c) for c in children(e.body)):
            b = s.block(e.body, lambda a: f'wret {tup(vs)}')
            def go(l):
                pat = (vb + ' <-w ') if vs else ''
                return f'{pat}for_ (fun {pb} {vb} =>\n{ind(ind(b))})\n  {paren(l)} {tup(vs)} ' + (';;\n' if vs else ';;w\n') + k('tt')
            return s.E(e.e, go)
        saved = s.ctx_return, s.ctx_break, s.ctx_continue
        nxt = lambda *_: f'wret (Next {tup(vs)})'
        s.ctx_return = lambda x: s.E(x, lambda a: f'wret (Return {paren(a)})')
        s.ctx_break = lambda: f'wret (Break {tup(vs)})'
        s.ctx_continue = nxt
        b = s.block(e.body, nxt)
        s.ctx_return, s.ctx_break, s.ctx_continue = saved
        def go(l):
            r = s.fresh(); v = s.fresh()
            done = tup(vs) if vs else '_'
            return (f'{r} <-w for_ctl (fun {pb} {vb} =>\n{ind(ind(b))})\n  {paren(l)} {tup(vs)} ;;\n'
                    f'match {r} with\n| inr {v} => wret {v}\n| inl {done} =>\n{ind(ind(k("tt")))}\nend')
        return s.E(e.e, go)

# ------------------------------------------------------------------ formatting (SrcDebug.v)
class Fmt:
    """`{:?}` / `{}` of every type: derived `Debug` from the declaration, hand-written
    impls from their `write!`.  Combinators: SrcFmt.v."""
    def __init__(s, crate):
        s.c, s.out, s.seen = crate, [], set()
        s.impls = {(k, i.owner, i.trait): i for k, its in crate.files.items() for i in its if i.kind == 'fmt'}
        for i in s.impls.values(): i.key = next(k for k, its in crate.files.items() if i in its)
    def name(s, a, trait='Debug'):
        k = a.key.split('/'); return (k[0] + '_' if len(k) > 1 else '') + a.name + '_' + trait.lower()
    def lit(s, x): return '(txt "%s")' % x
    def ty(s, t, key, trait='Debug'):
        """the formatting function of a (syntactic) type"""
        d = lambda x: s.ty(x, key)
        if t[0] in ('ref', 'mutref'): return s.ty(t[1], key, trait)
        if t[0] == 'tuple' and len(t[1]) == 2: return f'(fmt_pair {d(t[1][0])} {d(t[1][1])})'
        assert t[0] == 'path', t
        n, a = t[1], t[2]
        if n in ('u8', 'u16', 'u32', 'usize'): return 'dec'
        if n == 'bool': return 'show_bool'
        if n == 'String': return 'fmt_display_str' if trait == 'Display' else '(fmt_str esc)'
        if trait == 'Debug':
            if n == 'Bytes': return 'fmt_bytes'
            if n == 'Vec': return f'(fmt_vec {d(a[0])})'
            if n == 'Option': return f'(fmt_option {d(a[0])})'
        b = s.c.lookup_adt(key, n); s.adt(b, trait)
        return f'({s.name(b, trait)} esc)'
    def expr(s, e, a):
        """a format argument: text and syntactic type"""
        if e.kind == 'mutref' or e.kind == 'paren': return s.expr(e.e, a)
        if e.kind == 'var' and e.name == 'self': return 'x', ('path', a.name, [])
        if e.kind == 'field':
            r, t = s.expr(e.e, a); b = s.c.lookup_adt(a.key, t[1])
            for pr, (f, ft) in zip(b.projs, b.fields):
                if f == e.name: return f'({pr} {r})', ft
            raise KeyError(e.name)
        if e.kind == 'method' and e.name == 'len' and not e.args:
            r, t = s.expr(e.recv, a); assert t[1] in ('String', 'Bytes', 'Vec')
            return f'(fmt_len {r})', ('path', 'usize', [])
        raise NotImplementedError(e)
    def adt(s, a, trait):
        if (a.qual, trait) in s.seen: return
        s.seen.add((a.qual, trait))
        i = s.impls.get((a.key, a.name, trait)); nm = s.name(a, trait)
        head = f'Definition {nm} (esc : bytes -> bytes) (x : {a.mty}) : bytes :=\n'
        if i:
            parts, n = [], 0
            for p in re.split(r'(\{[^}]*\})', i.text):
                if not p: continue
                if p[0] != '{': assert '"' not in p and '}' not in p; parts.append(s.lit(p)[1:-1]); continue
                assert p in ('{}', '{:?}'), p
                x, t = s.expr(i.args[n], a); n += 1
                parts.append(f'{s.ty(t, a.key, "Debug" if p == "{:?}" else "Display")} {x}')
            assert n == len(i.args), (a.name, trait)
            s.out.append(f'(** src/{a.key}.rs:{i.line}-{i.end} `impl {trait} for {a.name}` *)\n' + head
                         + '  ' + '\n  ++ '.join(parts) + '.\n'); return
        assert trait == 'Debug' and 'Debug' in a.derives, (a.qual, trait)
        doc = f'(** src/{a.key}.rs:{a.line} derived `Debug` of `{a.name}` *)\n'
        if a.kind == 'struct':
            fs = ';\n     '.join(f'({s.lit(f)[1:-1]}, {s.ty(t, a.key)} ({p} x))' for p, (f, t) in zip(a.projs, a.fields))
            s.out.append(doc + head + f'  fmt_struct {s.lit(a.name)}\n    [{fs}].\n'); return
        rows = ''
        for v, arg, _ in a.variants:
            rows += (f'  | {a.ctors[v]} => {s.lit(v)[1:-1]}\n' if arg is None else
                     f'  | {a.ctors[v]} y => fmt_tuple {s.lit(v)} ({s.ty(arg, a.key)} y)\n')
        s.out.append(doc + head + f'  match x with\n{rows}  end.\n')
    def file(s):
        for a in s.c.adts.values():
            if a.mty is None: continue
            if 'Debug' in a.derives or (a.key, a.name, 'Debug') in s.impls: s.adt(a, 'Debug')
            if (a.key, a.name, 'Display') in s.impls: s.adt(a, 'Display')
        text = '\n'.join(s.out)
        models = sorted(set(re.findall(r'\b(V[45][A-Z]\w+|Lib|Base)\.', text)) - {'Base', 'Lib'})
        nodef = [f'     src/{a.key}.rs:{a.line} {a.name}\n' for a in s.c.adts.values() if a.mty is None]
        return ('(** SrcDebug.v -- GENERATED by tools/rust2coq.py from the `Debug` and `Display` of /repo/src; do not edit.\n'
                + ('    Not translated (no counterpart in the model):\n' + ''.join(nodef) if nodef else '') + '    No proofs in this file. *)\n'
                + 'From Coq Require Import String.\nFrom Verif Require Import Base Lib Debug SrcFmt.\n'
                + f'From Verif Require {" ".join(models)}.\n\n' + text)

# ------------------------------------------------------------------ comparison (SrcEq.v)
class Cmp:
    """`==` of every type (derived from the declaration, or a hand-written `eq` made of comparisons
    of fields) and the derived `partial_cmp`.  Combinators: SrcCmp.v."""
    def __init__(s, crate):
        s.c, s.out, s.seen = crate, [], set()
        s.impls = {(k, i.owner): i for k, its in crate.files.items() for i in its if i.kind == 'eqimpl'}
    def name(s, a):
        k = a.key.split('/'); return (k[0] + '_' if len(k) > 1 else '') + a.name
    def ty(s, t, key):
        """the function `==` of a (syntactic) type"""
        if t[0] in ('ref', 'mutref'): return s.ty(t[1], key)
        if t[0] == 'tuple' and len(t[1]) == 2: return f'(eq_pair {s.ty(t[1][0], key)} {s.ty(t[1][1], key)})'
        assert t[0] == 'path', t
        n, a = t[1], t[2]
        if n in ('u8', 'u16', 'u32', 'usize'): return 'N.eqb'
        if n == 'bool': return 'Bool.eqb'
        if n in ('String', 'Bytes'): return 'eq_bytes'
        if n == 'Vec': return f'(eq_vec {s.ty(a[0], key)})'
        if n == 'Option': return f'(eq_option {s.ty(a[0], key)})'
        b = s.c.lookup_adt(key, n); s.adt(b)
        return s.name(b) + '_eq'
    def field(s, e, a):
        """`self.f`, `other.f`: text and type"""
        while e.kind in ('paren', 'mutref'): e = e.e
        if e.kind == 'var': return {'self': 'x', 'other': 'y'}[e.name], ('path', a.name, [])
        assert e.kind == 'field', e.kind
        r, t = s.field(e.e, a); b = s.c.lookup_adt(a.key, t[1])
        for pr, (f, ft) in zip(b.projs, b.fields):
            if f == e.name: return f'({pr} {r})', ft
        raise KeyError(e.name)
    def cond(s, e, a):
        while e.kind == 'paren': e = e.e
        if e.kind == 'bin' and e.op in ('&&', '||'): return f'({s.cond(e.a, a)} {e.op} {s.cond(e.b, a)})'
        if e.kind == 'bool': return e.v
        assert e.kind == 'bin' and e.op in ('==', '!='), e.kind
        (l, t), (r, _) = s.field(e.a, a), s.field(e.b, a)
        x = f'{s.ty(t, a.key)} {l} {r}'
        return f'({x})' if e.op == '==' else f'(negb ({x}))'
    def adt(s, a):
        if a.qual in s.seen: return
        s.seen.add(a.qual)
        i = s.impls.get((a.key, a.name)); nm = s.name(a)
        head = f'Definition {nm}_eq (x y : {a.mty}) : bool :=\n'
        if i:
            s.out.append(f'(** src/{a.key}.rs:{i.line}-{i.end} `impl PartialEq for {a.name}` *)\n' + head + f'  {s.cond(i.e, a)}.\n')
            return
        assert 'PartialEq' in a.derives, a.qual
        doc = f'(** src/{a.key}.rs:{a.line} derived `==` of `{a.name}` *)\n'
        if a.kind == 'struct':
            fs = '\n  && '.join(f'{s.ty(t, a.key)} ({p} x) ({p} y)' for p, (f, t) in zip(a.projs, a.fields))
            s.out.append(doc + head + f'  {fs or "true"}.\n')
        else:
            rows = ''.join(f'  | {a.ctors[v]}, {a.ctors[v]} => true\n' if arg is None else
                           f'  | {a.ctors[v]} a, {a.ctors[v]} b => {s.ty(arg, a.key)} a b\n' for v, arg, _ in a.variants)
            s.out.append(doc + head + f'  match x, y with\n{rows}' + ('  | _, _ => false\n' if len(a.variants) > 1 else '') + '  end.\n')
    def order(s, a):
        doc = f'(** src/{a.key}.rs:{a.line} derived `partial_cmp` of `{a.name}`%s *)\n'
        head = f'Definition {s.name(a)}_cmp (x y : {a.mty}) : comparison :=\n'
        if a.kind == 'struct':
            assert all(t[1] in ('u8', 'u16', 'u32', 'usize') for _, t in a.fields)
            fs = ' then_\n  '.join(f'N.compare ({p} x) ({p} y)' for p in a.projs)
            s.out.append(doc % ': field by field' + head + f'  {fs}.\n')
        else:
            assert all(arg is None for _, arg, _ in a.variants)
            rows = lambda z: f'(match {z} with ' + ' | '.join(f'{a.ctors[v]} => {d}' for v, _, d in a.variants) + ' end)'
            s.out.append(doc % ': by discriminant' + head + f'  N.compare {rows("x")}\n    {rows("y")}.\n')
    def file(s):
        for a in s.c.adts.values():
            if a.mty and ('PartialEq' in a.derives or (a.key, a.name) in s.impls): s.adt(a)
            if a.mty and 'PartialOrd' in a.derives: s.order(a)
        text = '\n'.join(s.out)
        models = sorted(set(re.findall(r'\b(V[45][A-Z]\w+|Lib|Base)\.', text)) - {'Base', 'Lib'})
        nodef = [f'     src/{a.key}.rs:{a.line} {a.name}\n' for a in s.c.adts.values() if a.mty is None]
        return ('(** SrcEq.v -- GENERATED by tools/rust2coq.py from the `PartialEq` and `PartialOrd` of /repo/src; do not edit.\n'
                + ('    Not translated (no counterpart in the model):\n' + ''.join(nodef) if nodef else '') + '    No proofs in this file. *)\n'
                + 'From Verif Require Import Base Lib SrcCmp.\n'
                + f'From Verif Require {" ".join(models)}.\n\n' + text)

# ------------------------------------------------------------------ copies (SrcClone.v)
class Copies(Cmp):
    """`clone` of every type: derived (every field, or the argument of the variant, is cloned), or a
    hand-written `clone` that lists every field.  Combinators: SrcCmp.v."""
    def __init__(s, crate):
        Cmp.__init__(s, crate)
        s.impls = {(k, i.owner): i for k, its in crate.files.items() for i in its if i.kind == 'cloneimpl'}
    def ty(s, t, key):
        """the function `clone` of a (syntactic) type"""
        if t[0] == 'tuple' and len(t[1]) == 2: return f'(clone_pair {s.ty(t[1][0], key)} {s.ty(t[1][1], key)})'
        assert t[0] == 'path', t
        n, a = t[1], t[2]
        if n in ('u8', 'u16', 'u32', 'usize', 'bool'): return 'clone_scalar'
        if n in ('String', 'Bytes'): return 'clone_bytes'
        if n == 'Vec': return f'(clone_vec {s.ty(a[0], key)})'
        if n == 'Option': return f'(clone_option {s.ty(a[0], key)})'
        b = s.c.lookup_adt(key, n); s.adt(b)
        return s.name(b) + '_clone'
    def expr(s, e, a):
        """a field of the result: `self.f` or `self.f.clone()`, or a literal"""
        while e.kind == 'paren': e = e.e
        if e.kind == 'bool': return e.v
        if e.kind == 'method' and e.name == 'clone' and not e.args:
            r, t = s.field(e.e, a); return f'{s.ty(t, a.key)} {r}'
        if e.kind == 'path' and e.path == ['None']: return 'None'
        return s.field(e, a)[0]
    def adt(s, a):
        if a.qual in s.seen: return
        s.seen.add(a.qual)
        i = s.impls.get((a.key, a.name)); nm = s.name(a)
        head = f'Definition {nm}_clone (x : {a.mty}) : {a.mty} :=\n'
        if i:
            assert i.e.kind == 'struct_lit' and a.kind == 'struct', i.e.kind
            fs = dict(i.e.fields); assert set(fs) == {f for f, _ in a.fields}
            args = ' '.join(f'({s.expr(fs[f], a)})' for f, _ in a.fields)
            s.out.append(f'(** src/{a.key}.rs:{i.line}-{i.end} `impl Clone for {a.name}` *)\n' + head + f'  {a.mk} {args}.\n')
            return
        assert 'Clone' in a.derives, a.qual
        doc = f'(** src/{a.key}.rs:{a.line} derived `clone` of `{a.name}` *)\n'
        if a.kind == 'struct':
            args = '\n    '.join(f'({s.ty(t, a.key)} ({p} x))' for p, (f, t) in zip(a.projs, a.fields))
            s.out.append(doc + head + f'  {a.mk}\n    {args}.\n')
        else:
            rows = ''.join(f'  | {a.ctors[v]} => {a.ctors[v]}\n' if arg is None else
                           f'  | {a.ctors[v]} a => {a.ctors[v]} ({s.ty(arg, a.key)} a)\n' for v, arg, _ in a.variants)
            s.out.append(doc + head + f'  match x with\n{rows}  end.\n')
    def file(s):
        for a in s.c.adts.values():
            if a.mty and ('Clone' in a.derives or (a.key, a.name) in s.impls): s.adt(a)
        text = '\n'.join(s.out)
        models = sorted(set(re.findall(r'\b(V[45][A-Z]\w+|Lib|Base)\.', text)) - {'Base', 'Lib'})
        nodef = [f'     src/{a.key}.rs:{a.line} {a.name}\n' for a in s.c.adts.values() if a.mty is None]
        return ('(** SrcClone.v -- GENERATED by tools/rust2coq.py from the `Clone` of /repo/src; do not edit.\n'
                + ('    Not translated (no counterpart in the model):\n' + ''.join(nodef) if nodef else '') + '    No proofs in this file. *)\n'
                + 'From Verif Require Import Base Lib SrcCmp.\n'
                + f'From Verif Require {" ".join(models)}.\n\n' + text)

# ------------------------------------------------------------------ driver
def topo(fns):
    out, seen = [], set()
    def visit(f):
        if id(f) in seen: return
        seen.add(id(f))
        for g in f.calls:
            if g.cmod == f.cmod and g is not f: visit(g)
        out.append(f)
    for f in fns: visit(f)
    return out

def try_from_calls(f, c):
    def go(e):
        if e.kind == 'method' and e.name == 'try_into':
            t = res(res(e.ty)[1]); a = c.adts[t[1]]
            f.calls.append(c.fns[(a.key, a.name, 'try_from')])
        for x in children(e):
            if x.kind not in ('struct', 'enum', 'fn'): go(x)
    go(f.body)

def main():
    here = os.path.dirname(os.path.abspath(__file__))
    repo = sys.argv[1] if len(sys.argv) > 1 else '/repo'
    out = sys.argv[2] if len(sys.argv) > 2 else os.path.join(here, '../rocq/theories')
    model = os.path.join(here, '../rocq/theories')
    c = Crate(repo, model)
    fns = list(c.fns.values())
    for f in fns: Infer(c, f)
    for f in fns: try_from_calls(f, c)
    ch = True
    while ch:
        ch = False
        for f in fns:
            if not f.fuel and any(g.fuel for g in f.calls): f.fuel = ch = True
    mods = {}
    for f in fns: mods.setdefault(f.cmod, []).append(f)
    enums = {}
    for a in c.adts.values():
        if a.kind == 'enum' and a.mty and all(x is None for _, x, _ in a.variants):
            m = srcmod(a.key, 'x' if a.name == 'PropertyType' else None)
            enums.setdefault(m, []).append(a); mods.setdefault(m, [])
    order = []
    for m, fl in sorted(mods.items()):
        key = (fl[0].key if fl else enums[m][0].key)
        body = []
        for a in enums.get(m, []):
            rows = ''.join(f'  | {a.ctors[v]} => {d}\n' for v, _, d in a.variants)
            body.append(f'(** src/{a.key}.rs:{a.line} `{a.name} as u8` (the discriminants of the declaration; also decides the derived `==`) *)\n'
                        f'Definition {a.name}_as_u8 (x : {a.mty}) : N :=\n  match x with\n{rows}  end.\n')
        for f in topo(fl): body.append(Emit(c, f).fn())
        text = '\n'.join(body)
        deps = sorted(set(re.findall(r'\b(Src(?:Lib|V[45]\w+|Topic))\.', text)) - {m})
        models = sorted(set(re.findall(r'\b(V[45][A-Z]\w+|Lib|Base)\.', text)) - {'Base', 'Lib'})
        sk = ''.join(f'     src/{key}.rs:{l} {t}\n' for l, t in c.skipped[key]) if m != 'SrcV5Property' else ''
        hdr = (f'(** {m}.v -- GENERATED by tools/rust2coq.py from src/{key}.rs; do not edit.\n'
               + (f'    Not translated:\n{sk}' if sk else '') + '    No proofs in this file. *)\n'
               + 'From Verif Require Import Base Lib SrcBase.\n'
               + (f'From Verif Require {" ".join(models)}.\n' if models else '')
               + (f'From Verif Require {" ".join(deps)}.\n' if deps else '') + '\n')
        open(os.path.join(out, m + '.v'), 'w').write(hdr + text)
        # the same text over the unchecked arithmetic of WrapBase.v
        wrap = re.sub(r'\bSrc(?=(?:Lib|V[45]\w+|Topic)\b)', 'Wrap', hdr + text).replace('Lib SrcBase.', 'Lib SrcBase WrapBase.')
        open(os.path.join(out, m.replace('Src', 'Wrap') + '.v'), 'w').write(wrap)
        # the same text over the vocabulary that records what is printed, TraceBase.v
        trace = re.sub(r'\bSrc(?=(?:Lib|V[45]\w+|Topic)\b)', 'Trace', hdr + text).replace('Lib SrcBase.', 'Lib SrcBase TraceBase.')
        open(os.path.join(out, m.replace('Src', 'Trace') + '.v'), 'w').write(trace)
        # and over the arithmetic of an arbitrary target, PortBase.v
        ph = re.sub(r'\bSrc(?=(?:Lib|V[45]\w+|Topic)\b)', 'Port', hdr).replace('Lib SrcBase.', 'Lib SrcBase PortBase.')
        pt = re.sub(r'\bSrc(?=(?:Lib|V[45]\w+|Topic)\b)', 'Port', text)
        open(os.path.join(out, m.replace('Src', 'Port') + '.v'), 'w').write(
            ph + 'Section Port.\nContext {target : Target}.\n\n' + pt + '\nEnd Port.\n')
        order.append((m, deps))
    open(os.path.join(out, 'SrcDebug.v'), 'w').write(Fmt(c).file())
    open(os.path.join(out, 'SrcEq.v'), 'w').write(Cmp(c).file())
    open(os.path.join(out, 'SrcClone.v'), 'w').write(Copies(c).file())
    done = []
    while order:
        for x in order:
            if all(d in done for d in x[1]): done.append(x[0]); order.remove(x); break
        else: raise Exception('cycle')
    print(' '.join(done))

if __name__ == '__main__': main()
