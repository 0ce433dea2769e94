#!/usr/bin/env python3
"""Parses the Go files of the package and prints the syntax trees of their functions as Coq terms of type SrcAst.func.
usage: gen_srccode.py > ../rocq/theories/SrcCode.v      (reads /repo as text; nothing is built or run)
The parser handles the subset of Go that the package uses. Nothing is simplified on the way: every statement of a function
body becomes one constructor. Types are kept as their text. A call is classified by its syntax only: x.f(a) with x an
imported package is a call of the function "x.f" (just "f" when x is the package bls itself), with anything else in front
of the dot a method call."""
import re, sys, os
REPO = os.environ.get('SRC_REPO', '/repo')
FILES = [('fqrepr.go', ''), ('stub_fallback.go', ''), ('bititerator.go', ''), ('fq.go', ''), ('fq2.go', ''), ('fq6.go', ''), ('fq12.go', ''), ('frrepr.go', ''), ('fr.go', ''),
         ('g1.go', ''), ('g2.go', ''), ('pairing.go', ''), ('hash.go', ''), ('g1pubs/bls.go', 'g1pubs/'), ('g2pubs/bls.go', 'g2pubs/')]
TOK = re.compile(r'''(?P<ws>[ \t\r]+|//[^\n]*|/\*.*?\*/)|(?P<nl>\n)|(?P<num>0[xX][0-9a-fA-F]+|[0-9]+)|(?P<id>[A-Za-z_]\w*)|(?P<str>"(?:\\.|[^"\\])*"|`[^`]*`)|(?P<chr>'(?:\\.|[^'\\])+')
|(?P<op><<=|>>=|&\^=|\.\.\.|&&|\|\||<-|\+\+|--|==|!=|<=|>=|:=|\+=|-=|\*=|/=|%=|&=|\|=|\^=|<<|>>|&\^|[-+*/%&|^<>=!()\[\]{},;.:])''', re.S | re.X)
KW = set('break case chan const continue default defer else fallthrough for func go goto if import interface map package range return select struct switch type var'.split())
def lex(s):
    out = []; i = 0; line = 1
    def semi():
        if out:
            k, v, _ = out[-1]
            if k in ('num', 'str', 'chr') or (k == 'id' and (v not in KW or v in ('break', 'continue', 'fallthrough', 'return'))) or v in ('++', '--', ')', ']', '}'):
                out.append(('op', ';', line))
    while i < len(s):
        m = TOK.match(s, i)
        if not m: raise SyntaxError('line %d: %r' % (line, s[i:i+20]))
        k = m.lastgroup; v = m.group(); i = m.end()
        if k == 'nl': semi(); line += 1
        elif k == 'ws': line += v.count('\n')
        else: out.append((k, v, line)); line += v.count('\n')
    semi(); out.append(('eof', '', line))
    return out
PREC = {'||': 1, '&&': 2, '==': 3, '!=': 3, '<': 3, '<=': 3, '>': 3, '>=': 3, '+': 4, '-': 4, '|': 4, '^': 4, '*': 5, '/': 5, '%': 5, '<<': 5, '>>': 5, '&': 5, '&^': 5}
class P:
    def __init__(s, toks): s.t = toks; s.i = 0; s.lev = 0; s.pkgs = set()
    def pk(s, k=0): return s.t[s.i + k]
    def at(s, v): return s.pk()[0] in ('op', 'id') and s.pk()[1] == v
    def nx(s): s.i += 1; return s.t[s.i - 1]
    def eat(s, v):
        if not s.at(v): raise SyntaxError('line %d: expected %r, found %r' % (s.pk()[2], v, s.pk()[1]))
        return s.nx()
    def acc(s, v):
        if s.at(v): s.nx(); return True
        return False
    def ident(s):
        k, v, l = s.nx()
        if k != 'id' or v in KW: raise SyntaxError('line %d: identifier expected, found %r' % (l, v))
        return v
    # types, as text
    def typ(s):
        if s.acc('*'): return '*' + s.typ()
        if s.acc('('): t = s.typ(); s.eat(')'); return t
        if s.acc('['):
            if s.acc(']'): return '[]' + s.typ()
            n = '...' if s.acc('...') else s.nx()[1]
            s.eat(']'); return '[' + n + ']' + s.typ()
        if s.acc('func'): ps, rs = s.sig(); return 'func'
        if s.acc('struct'):
            s.eat('{'); d = 1
            while d: v = s.nx()[1]; d += (v == '{') - (v == '}')
            return 'struct'
        if s.acc('interface'): s.eat('{'); s.eat('}'); return 'interface{}'
        if s.acc('map'): s.eat('['); k = s.typ(); s.eat(']'); return 'map[' + k + ']' + s.typ()
        n = s.ident()
        while s.acc('.'): n += '.' + s.ident()
        return n
    def params(s):
        """( ... ) -> list of (name, type)"""
        s.eat('('); items = []
        while not s.at(')'):
            if s.acc('...'): items.append((None, '...' + s.typ()))
            else:
                t = s.typ()
                if s.at(',') or s.at(')'): items.append((None, t))
                else: items.append((t, ('...' if s.acc('...') else '') + s.typ()))
            if not s.acc(','): break
        s.eat(')')
        if any(n for n, _ in items):
            out = []; pend = []
            for n, t in items:
                if n is None: pend.append(t)
                else: out += [(x, t) for x in pend] + [(n, t)]; pend = []
            return out
        return [('_', t) for _, t in items]
    def sig(s):
        ps = s.params(); rs = []
        if s.at('('): rs = s.params()
        elif not (s.at('{') or s.at(';') or s.at(',') or s.at(')')): rs = [('_', s.typ())]
        return ps, rs
    # expressions
    def expr(s, p=1):
        x = s.unary()
        while s.pk()[0] == 'op' and PREC.get(s.pk()[1], 0) >= p:
            o = s.nx()[1]; y = s.expr(PREC[o] + 1); x = ('Bin', o, x, y)
        return x
    def unary(s):
        if s.pk()[0] == 'op' and s.pk()[1] in ('-', '!', '&', '*', '+', '^'):
            o = s.nx()[1]; return ('Un', o, s.unary())
        return s.primary()
    def istype(s): return s.at('[')
    def primary(s):
        k, v, l = s.pk()
        if k == 'num': s.nx(); x = ('Int', int(v, 0))
        elif k == 'str': s.nx(); x = ('Str', v[1:-1])
        elif k == 'id' and v == 'func':
            s.nx(); ps, rs = s.sig(); lev = s.lev; s.lev = 0; b = s.block(); s.lev = lev; x = ('Func', ps, rs, b)
        elif v == '[':
            t = s.typ()
            if s.at('{'): x = s.complit(t)
            else: s.eat('('); e = s.expr(); s.acc(','); s.eat(')'); x = ('Fun', t, [e], False)
        elif v == '(':
            s.nx(); lev = s.lev; s.lev = 0; x = s.expr(); s.lev = lev; s.eat(')')
        elif k == 'id' and v not in KW: s.nx(); x = ('Var', v)
        else: raise SyntaxError('line %d: %r' % (l, v))
        while True:
            if s.at('.'):
                s.nx()
                if s.acc('('): t = s.typ(); s.eat(')'); x = ('Assert', x, t)
                elif x[0] == 'Var' and x[1] in s.pkgs: x = ('Var', ('' if x[1] == 'bls' else x[1] + '.') + s.ident())
                else: x = ('Sel', x, s.ident())
            elif s.at('('):
                s.nx(); lev = s.lev; s.lev = 0; a = []; ell = False
                if x in (('Var', 'make'), ('Var', 'new')): a.append(('Typ', s.typ())); s.acc(',')
                while not s.at(')'):
                    a.append(s.expr())
                    if s.acc('...'): ell = True
                    if not s.acc(','): break
                s.lev = lev; s.eat(')')
                if x[0] == 'Var': x = ('Fun', x[1], a, ell)
                elif x[0] == 'Sel': x = ('Meth', x[1], x[2], a)
                else: raise SyntaxError('line %d: call' % l)
            elif s.at('['):
                s.nx(); lev = s.lev; s.lev = 0; lo = hi = None; sl = False
                if not s.at(':'): lo = s.expr()
                if s.acc(':'):
                    sl = True
                    if not s.at(']'): hi = s.expr()
                s.lev = lev; s.eat(']')
                x = ('Slice', x, lo, hi) if sl else ('Idx', x, lo)
            elif s.at('{') and s.lev >= 0 and x[0] == 'Var': x = s.complit(x[1])
            else: return x
    def complit(s, t):
        s.eat('{'); lev = s.lev; s.lev = 0; es = []
        elt = re.sub(r'^\[\d*\]', '', t) if t.startswith('[') else ''   # the type of an element may be left out
        while not s.at('}'):
            e = s.complit(elt) if s.at('{') else s.expr()
            if s.acc(':'):
                if e[0] != 'Var': raise SyntaxError('key')
                es.append((e[1], s.complit('') if s.at('{') else s.expr()))
            else: es.append(('', e))
            if not s.acc(','): break
        s.lev = lev; s.eat('}')
        return ('Comp', t, es)
    # statements
    def block(s):
        s.eat('{'); b = []
        while not s.at('}'):
            b += s.stmt()
            if not s.at('}'): s.eat(';')
        s.eat('}'); return b
    def simple(s):
        if s.at('range'): s.nx(); return ('RangeHead', [], s.expr())
        xs = [s.expr()]
        while s.acc(','): xs.append(s.expr())
        k, v, l = s.pk()
        if v in (':=', '='):
            s.nx()
            if s.at('range'):
                s.nx(); return ('RangeHead', xs, s.expr())
            ys = [s.expr()]
            while s.acc(','): ys.append(s.expr())
            if v == ':=': return ('Def', [x[1] for x in xs], ys)
            return ('Assign', xs, ys)
        if k == 'op' and v.endswith('=') and v not in ('==', '!=', '<=', '>='):
            s.nx(); return ('Op', v[:-1], xs[0], s.expr())
        if v in ('++', '--'): s.nx(); return ('Op', v[0], xs[0], ('Int', 1))
        return ('Expr', xs[0])
    def stmt(s):
        if s.at(';'): return []
        if s.at('{'): return [('Block', s.block())]
        if s.acc('return'):
            es = []
            while not (s.at(';') or s.at('}')):
                es.append(s.expr())
                if not s.acc(','): break
            return [('Ret', es)]
        if s.acc('break'): return [('Break',)]
        if s.acc('continue'): return [('Continue',)]
        if s.acc('var'):
            if s.at('('): raise SyntaxError('var group')
            ns = [s.ident()]
            while s.acc(','): ns.append(s.ident())
            if s.at('='): s.nx(); return [('Def', ns, [s.expr()])]
            t = s.typ()
            if s.acc('='): return [('Def', ns, [s.expr()])]
            return [('Var', n, t) for n in ns]
        if s.at('if'): return [s.ifstmt()]
        if s.acc('switch'):
            lev = s.lev; s.lev = -1; e = s.expr(); s.lev = lev; s.eat('{'); cs = []
            while not s.acc('}'):
                vs = None
                if s.acc('default'): pass
                else:
                    s.eat('case'); vs = [s.expr()]
                    while s.acc(','): vs.append(s.expr())
                s.eat(':'); b = []
                while not (s.at('case') or s.at('default') or s.at('}')):
                    b += s.stmt()
                    if not s.at('}'): s.eat(';')
                cs.append((vs, b))
            return [('Switch', e, cs)]
        if s.acc('for'):
            lev = s.lev; s.lev = -1; init = cond = post = None
            if s.at('{'): s.lev = lev; return [('For', [], None, [], s.block())]
            if not s.at(';'): init = s.simple()
            if init and init[0] == 'RangeHead':
                s.lev = lev; xs = [x[1] for x in init[1]] + ['_', '_']; return [('Range', xs[0], xs[1], init[2], s.block())]
            if s.at('{'):
                s.lev = lev; return [('For', [], init[1], [], s.block())]
            s.eat(';')
            if not s.at(';'): cond = s.expr()
            s.eat(';')
            if not s.at('{'): post = s.simple()
            s.lev = lev
            return [('For', [init] if init else [], cond, [post] if post else [], s.block())]
        return [s.simple()]
    def ifstmt(s):
        s.eat('if'); lev = s.lev; s.lev = -1; init = []
        c = s.simple()
        if s.acc(';'): init = [c]; c = s.simple()
        s.lev = lev; b = s.block(); e = []
        if s.acc('else'): e = [s.ifstmt()] if s.at('if') else s.block()
        return ('If', init, c[1], b, e)
    def file(s):
        fs = []; vs = []
        s.eat('package'); s.ident(); s.eat(';')
        while s.pk()[0] != 'eof':
            if s.acc(';'): continue
            if s.acc('import'):
                def one():
                    a = s.ident() if s.pk()[0] == 'id' else None
                    p = s.nx()[1].strip('"'); s.pkgs.add(a or p.split('/')[-1])
                if s.acc('('):
                    while not s.acc(')'): one(); s.acc(';')
                else: one()
            elif s.acc('type'): s.ident(); s.typ()
            elif s.at('func'):
                l = s.nx()[2]; recv = None
                if s.at('('): recv = s.params()
                n = s.ident(); ps, rs = s.sig()
                b = s.block() if s.at('{') else None
                fs.append((n, recv, ps, rs, b, l, s.t[s.i - 1][2]))
            elif s.at('var') or s.at('const'):
                s.nx()
                def one():
                    ns = [s.ident()]
                    while s.acc(','): ns.append(s.ident())
                    if not s.at('=') and not s.at(';') and not s.at(')'): s.typ()
                    if s.acc('='):
                        vs.append((ns, s.expr()))
                if s.acc('('):
                    while not s.acc(')'): one(); s.acc(';')
                else: one()
            else: raise SyntaxError('line %d: %r' % (s.pk()[2], s.pk()[1]))
        return fs, vs
def q(s): return '"' + s.replace('"', '""') + '"'
def L(xs): return '[' + '; '.join(xs) + ']'
def E(e):
    k = e[0]
    if k == 'Var': return '(EV %s)' % q(e[1])
    if k == 'Int': return '(EI %d)' % e[1]
    if k == 'Str': return '(ES %s)' % q(e[1])
    if k == 'Typ': return '(ET %s)' % q(e[1])
    if k == 'Sel': return '(ESel %s %s)' % (E(e[1]), q(e[2]))
    if k == 'Idx': return '(EIdx %s %s)' % (E(e[1]), E(e[2]))
    if k == 'Slice': return '(ESlice %s %s %s)' % (E(e[1]), O(e[2]), O(e[3]))
    if k == 'Bin': return '(EBin %s %s %s)' % (q(e[1]), E(e[2]), E(e[3]))
    if k == 'Un': return '(EUn %s %s)' % (q(e[1]), E(e[2]))
    if k == 'Fun': return '(%s %s %s)' % ('ECallSpread' if e[3] else 'ECall', q(e[1]), L([E(a) for a in e[2]]))
    if k == 'Meth': return '(EMeth %s %s %s)' % (E(e[1]), q(e[2]), L([E(a) for a in e[3]]))
    if k == 'Comp': return '(EComp %s %s)' % (q(e[1]), L(['(%s, %s)' % (q(n), E(v)) for n, v in e[2]]))
    if k == 'Func': return '(EFunc %s %s %s)' % (PS(e[1]), PS(e[2]), B(e[3], 6))
    raise SyntaxError(k)
def O(e): return 'None' if e is None else '(Some %s)' % E(e)
def PS(ps): return L(['(%s, %s)' % (q(n), q(t)) for n, t in ps])
def B(b, ind):
    if not b: return '[]'
    sp = '\n' + ' ' * ind
    return '[' + (';' + sp + ' ').join(S(x, ind + 2) for x in b) + ']'
def S(s, ind):
    k = s[0]
    if k == 'Def': return 'SDef %s %s' % (L([q(x) for x in s[1]]), L([E(e) for e in s[2]]))
    if k == 'Assign': return 'SAssign %s %s' % (L([E(x) for x in s[1]]), L([E(e) for e in s[2]]))
    if k == 'Op': return 'SOp %s %s %s' % (q(s[1]), E(s[2]), E(s[3]))
    if k == 'Expr': return 'SExpr %s' % E(s[1])
    if k == 'Var': return 'SVar %s %s' % (q(s[1]), q(s[2]))
    if k == 'Ret': return 'SRet %s' % L([E(e) for e in s[1]])
    if k == 'If': return 'SIf %s %s\n%s%s\n%s%s' % (B(s[1], ind), E(s[2]), ' ' * ind, B(s[3], ind), ' ' * ind, B(s[4], ind))
    if k == 'For': return 'SFor %s %s %s\n%s%s' % (B(s[1], ind), O(s[2]), B(s[3], ind), ' ' * ind, B(s[4], ind))
    if k == 'Range': return 'SRange %s %s %s\n%s%s' % (q(s[1]), q(s[2]), E(s[3]), ' ' * ind, B(s[4], ind))
    if k == 'Block': return 'SBlock %s' % B(s[1], ind)
    if k == 'Switch': return 'SSwitch %s [%s]' % (E(s[1]), '; '.join('(%s, %s)' % ('None' if v is None else 'Some ' + L([E(x) for x in v]), B(b, ind)) for v, b in s[2]))
    if k == 'Break': return 'SBreak'
    if k == 'Continue': return 'SContinue'
    raise SyntaxError(k)
def main():
    out = []; tabs = []; skipped = []
    for fn, pre in FILES:
        p = P(lex(open(os.path.join(REPO, fn)).read()))
        fs, vs = p.file()
        tab = []
        for n, recv, ps, rs, b, l0, l1 in fs:
            if recv:
                t = recv[0][1].lstrip('*'); name = pre + t + '.' + n
            else: name = pre + n
            cq = 'src_' + re.sub(r'\W', '_', name)
            if b is None: skipped.append((fn, name, 'no body')); continue
            try:
                out.append('(** %s:%d-%d *)\nDefinition %s : func := mkFunc %s %s\n  %s.' % (fn, l0, l1, cq, PS((recv or []) + ps), PS(rs), B(b, 4)))
                tab.append((name, cq))
            except SyntaxError as e: skipped.append((fn, name, str(e)))
        tabs.append((fn, tab))
    print('(** Generated by tools/gen_srccode.py from the text of the Go sources. Do not edit.\n    The syntax trees of the functions of the package; [SrcAst] explains the constructors. *)')
    print('Require Import ZArith String List.\nFrom Verif Require Import SrcAst.\nImport ListNotations.\nOpen Scope string_scope. Open Scope Z_scope.\n')
    print('\n'.join(out))
    print('\n(** Every function of the listed files, by name: T.m is the method m of type T. *)')
    for fn, tab in tabs:
        print('Definition srcs_%s : list (string * func) := [\n  %s].' % (re.sub(r'\W', '_', fn[:-3]), ';\n  '.join('(%s, %s)' % (q(a), b) for a, b in tab)))
    print('(* not translated: %s *)' % skipped)
    print('%d functions, skipped: %s' % (sum(len(t) for _, t in tabs), skipped), file=sys.stderr)
main()
