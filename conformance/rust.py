"""A lexer for Rust and a parser for the part of the syntax tree of `syn` that rocq/theories/Syntax.v has.

Tokens:  ('I', text, line, col)  ('P', op, line, col)  ('L', ('str', s) | ('usize', n) | ('other', text), line, col)
         ('G', delim, [tokens], line, col)       delim in '(', '{', '['
Columns count characters and start at 1, as proc_macro::Span::column does.
"""
import re

OPS = ['<<=', '>>=', '...', '..=', '::', '->', '=>', '==', '!=', '<=', '>=', '&&', '||', '+=', '-=', '*=', '/=', '%=', '^=', '&=', '|=', '<<', '>>', '..']
CLOSE = {'(': ')', '{': '}', '[': ']'}
ESC = {'n': '\n', 't': '\t', 'r': '\r', '0': '\0', '\\': '\\', '"': '"', "'": "'"}


class Fail(Exception):
    pass


def unescape(s):
    out, i = [], 0
    while i < len(s):
        if s[i] != '\\':
            out.append(s[i]); i += 1; continue
        c = s[i + 1]
        if c in ESC:
            out.append(ESC[c]); i += 2
        elif c == 'x':
            out.append(chr(int(s[i + 2:i + 4], 16))); i += 4
        elif c == 'u':
            j = s.index('}', i); out.append(chr(int(s[i + 3:j], 16))); i = j + 1
        elif c == '\n':
            i += 2
            while i < len(s) and s[i] in ' \t\n\r':
                i += 1
        else:
            raise Fail('escape ' + c)
    return ''.join(out)


def lex(text, ends=None):
    """the tokens; [ends] collects where groups end and how literals are written"""
    ends = {} if ends is None else ends
    pos, line, col, n = 0, 1, 1, len(text)
    stack = [(None, [], 0, 0)]

    def adv(k):
        nonlocal pos, line, col
        for ch in text[pos:pos + k]:
            if ch == '\n':
                line += 1; col = 1
            else:
                col += 1
        pos += k

    def raw(sp):
        ends[sp] = (line, col, text[start:pos])

    while pos < n:
        start = pos
        ch = text[pos]
        if ch.isspace():
            adv(1); continue
        if text.startswith('//', pos):
            m = re.compile(r'//([^\n]*)').match(text, pos)
            c = m.group(1)
            if (c.startswith('/') and not c.startswith('//')) or c.startswith('!'):
                sp = (line, col)
                out = stack[-1][1]
                out.append(('P', '#') + sp)
                if c.startswith('!'):
                    out.append(('P', '!') + sp)
                out.append(('G', '[', [('I', 'doc') + sp, ('P', '=') + sp, ('L', ('str', c[1:])) + sp]) + sp)
            adv(m.end() - pos); continue
        if text.startswith('/*', pos):
            adv(text.index('*/', pos) + 2 - pos); continue
        sp = (line, col)
        m = re.compile(r'b?r(#*)"').match(text, pos)
        if m:
            e = text.index('"' + m.group(1), m.end())
            body = text[m.end():e]
            stack[-1][1].append(('L', ('str', body) if text[pos] != 'b' else ('other', text[pos:e + 1 + len(m.group(1))])) + sp)
            adv(e + 1 + len(m.group(1)) - pos); raw(sp); continue
        m = re.compile(r'[bc]?"((?:[^"\\]|\\.)*)"', re.S).match(text, pos)
        if m:
            stack[-1][1].append(('L', ('str', unescape(m.group(1))) if ch == '"' else ('other', m.group(0))) + sp)
            adv(m.end() - pos); raw(sp); continue
        m = re.compile(r"b?'(?:[^'\\]|\\(?:x..|u\{[^}]*\}|.))'").match(text, pos)
        if m:
            stack[-1][1].append(('L', ('other', m.group(0))) + sp); adv(m.end() - pos); continue
        m = re.compile(r'(?:r#)?[^\W\d]\w*').match(text, pos)
        if m:
            stack[-1][1].append(('I', m.group(0)) + sp); adv(m.end() - pos); continue
        m = re.compile(r'0[xob][0-9a-fA-F_]+\w*|[0-9][0-9_]*(?:\.[0-9][0-9_]*|\.(?![.\w]))?(?:[eE][+-]?[0-9]+)?\w*').match(text, pos)
        if m:
            t = m.group(0)
            # a number behind a dot is a tuple field: 0.1 is two of them
            if stack[-1][1] and stack[-1][1][-1][:2] == ('P', '.') and '.' in t:
                t = t.split('.')[0]
            k = re.fullmatch(r'([0-9]+)usize', t)
            stack[-1][1].append(('L', ('usize', int(k.group(1))) if k else ('other', t)) + sp); adv(len(t)); continue
        if ch in '({[':
            stack.append((ch, [], line, col)); adv(1); continue
        if ch in ')}]':
            d, ts, l, c = stack.pop()
            if d is None or CLOSE[d] != ch:
                raise Fail('delimiter at %d:%d' % sp)
            ends[l, c] = (sp[0], sp[1] + 1, '')
            stack[-1][1].append(('G', d, ts, l, c)); adv(1); continue
        for op in OPS:
            if text.startswith(op, pos):
                stack[-1][1].append(('P', op) + sp); adv(len(op)); break
        else:
            stack[-1][1].append(('P', ch) + sp); adv(1)
    if len(stack) != 1:
        raise Fail('unclosed')
    return stack[0][1]


def explode(ts):
    """single character punctuation, all the way down"""
    out = []
    for t in ts:
        if t[0] == 'P':
            for k, ch in enumerate(t[1]):
                out.append(('P', ch, t[2], t[3] + k))
        elif t[0] == 'G':
            out.append(('G', t[1], explode(t[2]), t[3], t[4]))
        else:
            out.append(t)
    return out


def esc_str(s):
    return s.replace('\\', '\\\\').replace('\n', '\\n').replace('\t', '\\t').replace('\r', '\\r').replace('"', '\\"').replace(' ', '\\s')


def flat(ts, arms=False):
    """token texts as [flat] of Conformance.v has them: without the commas before closing delimiters and angle brackets, without the
    braces around closure bodies and match arms without statements, without the commas between match arms"""
    out = []
    last = before = None
    for t in explode(ts):
        bar = last == ('P', '|') or (before, last) == (('P', '='), ('P', '>'))
        before, last = last, t[:2]
        if arms and last == ('P', ','):
            continue
        if t[0] in 'IP':
            if t[1] == '>' and out and out[-1] == ',':
                out.pop()
            out.append(t[1])
        elif t[0] == 'L':
            k, v = t[1]
            out.append('"%s"' % esc_str(v) if k == 'str' else '%dusize' % v if k == 'usize' else v)
        else:
            d, kids = t[1], [x[:2] for x in explode(t[2])]
            inner = flat(t[2], any(a == ('P', '=') and b == ('P', '>') for a, b in zip(kids, kids[1:])))
            if inner and inner[-1] == ',':
                inner.pop()
            if d == '_' or (d == '{' and bar and ('P', ';') not in kids):
                out += inner
            else:
                out += [d] + inner + [CLOSE[d]]
    return out


# --------------------------------------------------------------------------------------------- parser
ITEM_KW = {'use', 'struct', 'enum', 'union', 'type', 'extern', 'mod', 'impl', 'trait', 'fn', 'static', 'macro_rules'}
EXPR_KW_BLOCK = {'if', 'while', 'for', 'loop', 'match', 'unsafe', 'const', 'try'}
RESERVED = {'as', 'break', 'const', 'continue', 'else', 'enum', 'extern', 'false', 'fn', 'for', 'if', 'impl', 'in', 'let', 'loop', 'match', 'mod', 'move', 'mut',
            'pub', 'ref', 'return', 'static', 'struct', 'trait', 'true', 'type', 'unsafe', 'use', 'where', 'while', 'async', 'await', 'dyn', 'abstract', 'become',
            'box', 'do', 'final', 'macro', 'override', 'priv', 'typeof', 'unsized', 'virtual', 'yield'}
NOT_PATH = RESERVED
PREC = {'=': 1, '+=': 1, '-=': 1, '*=': 1, '/=': 1, '%=': 1, '^=': 1, '&=': 1, '|=': 1, '<<=': 1, '>>=': 1, '..': 2, '..=': 2, '||': 3, '&&': 4,
        '==': 5, '!=': 5, '<': 5, '>': 5, '<=': 5, '>=': 5, '|': 6, '^': 7, '&': 8, '<<': 9, '>>': 9, '+': 10, '-': 10, '*': 11, '/': 11, '%': 11, 'as': 12}


class P:
    """a cursor over one token list"""

    def __init__(self, ts):
        self.ts, self.i = ts, 0

    def fork(self):
        p = P(self.ts); p.i = self.i
        return p

    def peek(self, k=0):
        return self.ts[self.i + k] if self.i + k < len(self.ts) else None

    def end(self):
        return self.i >= len(self.ts)

    def next(self):
        if self.end():
            raise Fail('end')
        t = self.ts[self.i]; self.i += 1
        return t

    def isP(self, op, k=0):
        t = self.peek(k)
        return t is not None and t[0] == 'P' and t[1] == op

    def isI(self, s=None, k=0):
        t = self.peek(k)
        return t is not None and t[0] == 'I' and (s is None or t[1] == s)

    def isG(self, d, k=0):
        t = self.peek(k)
        return t is not None and t[0] == 'G' and t[1] == d

    def eat(self, op):
        if not self.isP(op):
            raise Fail('expected %s, found %r' % (op, self.peek()))
        return self.next()

    def kw(self, s):
        if not self.isI(s):
            raise Fail('expected %s, found %r' % (s, self.peek()))
        return self.next()

    def group(self, d):
        if not self.isG(d):
            raise Fail('expected %s, found %r' % (d, self.peek()))
        return self.next()

    def split(self, first):
        """>> in generics is two tokens"""
        t = self.peek()
        if t is not None and t[0] == 'P' and len(t[1]) > 1 and t[1][0] == first:
            self.ts = self.ts[:self.i] + [('P', first, t[2], t[3]), ('P', t[1][1:], t[2], t[3] + 1)] + self.ts[self.i + 1:]

    # ---- attributes, paths, types
    def attrs(self, inner=False):
        out = []
        while self.isP('#') and (self.isG('[', 1) if not inner else (self.isP('!', 1) and self.isG('[', 2))):
            h = self.next()
            if inner:
                self.next()
            g = self.next()
            out.append(('attr', inner, (h[2], h[3]), meta(g[2])))
        return out

    def generics(self):
        """<...> as tokens"""
        a = self.i
        self.split('<')
        self.eat('<')
        depth = 1
        while depth:
            self.split('>')
            t = self.next()
            if t[0] == 'P' and t[1] == '<':
                depth += 1
            elif t[0] == 'P' and t[1] == '<<':
                depth += 2
            elif t[0] == 'P' and t[1] == '>':
                depth -= 1
        return self.ts[a:self.i]

    def path(self, expr=True, mod_style=False):
        lead = False
        if self.isP('::'):
            self.next(); lead = True
        segs = []
        while True:
            t = self.peek()
            if t is None or t[0] != 'I' or t[1] in NOT_PATH:
                raise Fail('path: %r' % (t,))
            self.next()
            args = []
            if not mod_style:
                if expr:
                    if self.isP('::') and self.peek(1) is not None and self.peek(1)[0] == 'P' and self.peek(1)[1][0] == '<':
                        cc = self.next(); args = [cc] + self.generics()
                else:
                    if self.isP('::') and self.peek(1) is not None and self.peek(1)[0] == 'P' and self.peek(1)[1] == '<':
                        cc = self.next(); args = [cc] + self.generics()
                    elif self.isP('<') or self.isP('<<'):
                        args = self.generics()
                    elif self.isG('(') and t[1] in ('Fn', 'FnMut', 'FnOnce'):
                        args = [self.next()]
                        if self.isP('->'):
                            args.append(self.next()); args += self.type()[0]
            segs.append((t[1], args, (t[2], t[3])))
            if self.isP('::') and self.isI(None, 1) and self.peek(1)[1] not in NOT_PATH:
                self.next()
            else:
                break
        return ('path', lead, segs)

    def type(self):
        """(tokens, path or None)"""
        a = self.i
        path = None
        self.split('&')
        if self.isP('&'):
            self.next()
            if self.isP("'"):
                self.next(); self.next()
            if self.isI('mut'):
                self.next()
            self.type()
        elif self.isP('*'):
            self.next(); self.next(); self.type()
        elif self.isP('!') or self.isI('_'):
            self.next()
        elif self.isG('(') or self.isG('['):
            self.next()
        elif self.isI('impl') or self.isI('dyn'):
            self.next(); self.bounds()
        elif self.isI('fn') or self.isI('unsafe') or self.isI('extern'):
            while not self.isI('fn'):
                self.next()
            self.next(); self.group('(')
            if self.isP('->'):
                self.next(); self.type()
        elif self.isP('<'):
            self.generics()
            while self.isP('::'):
                self.next(); self.next()
                if self.isP('<'):
                    self.generics()
        else:
            path = self.path(expr=False)
        return self.ts[a:self.i], path

    def bounds(self):
        while True:
            if self.isP("'"):
                self.next(); self.next()
            else:
                if self.isP('?'):
                    self.next()
                if self.isI('for'):
                    self.next(); self.generics()
                self.type()
            if self.isP('+'):
                self.next()
            else:
                return

    def until(self, stop):
        a = self.i
        while not self.end() and not stop(self):
            self.next()
        return self.ts[a:self.i]

    # ---- expressions
    def expr(self, struct=True):
        return self.binary(self.unary(struct), struct, 0)

    def expr_early(self):
        attrs = self.attrs()
        e = None
        t = self.peek()
        blocky = False
        if t is not None:
            if t[0] == 'I' and t[1] in ('if', 'while', 'for', 'loop', 'match'):
                blocky = not (t[1] == 'for' and self.isP('<', 1))
            elif t[0] == 'I' and t[1] in ('unsafe', 'const', 'try') and self.isG('{', 1):
                blocky = True
            elif t[0] == 'G' and t[1] == '{':
                blocky = True
            elif t[0] == 'P' and t[1] == "'" and self.isP(':', 2):
                blocky = True
        if not blocky:
            e = self.unary(True)
            e = with_attrs(e, attrs)
            return self.binary(e, True, 0)
        e = self.atom(True)
        if (self.isP('.') and not self.isP('..')) or self.isP('?'):
            e = self.trailer(e)
            e = with_attrs(e, attrs)
            return self.binary(e, True, 0)
        return with_attrs(e, attrs)

    def unary(self, struct):
        attrs = self.attrs()
        self.split('&')
        if self.isP('&'):
            a = self.i
            self.next()
            if self.isI('raw') and (self.isI('mut', 1) or self.isI('const', 1)):
                self.next(); self.next()
                kw = self.ts[a:self.i]
                return ('ERawAddr', attrs, kw, self.unary(struct))
            if self.isI('mut'):
                self.next()
            kw = self.ts[a:self.i]
            return ('EReference', attrs, kw, self.unary(struct))
        for op in '*!-':
            if self.isP(op):
                return ('EUnary', attrs, [self.next()], self.unary(struct))
        e = self.trailer(self.atom(struct))
        return with_attrs(e, attrs)

    def trailer(self, e):
        while True:
            if self.isG('('):
                g = self.next()
                es, cs = comma_exprs(g[2])
                e = ('ECall', [], e, (g[3], g[4]), es, cs)
            elif self.isP('.'):
                a = self.i
                self.next()
                if self.isI('await'):
                    self.next()
                    e = ('EAwait', [], e, self.ts[a:self.i]); continue
                t = self.next()
                if t[0] == 'L':
                    if '.' in t[1][1]:
                        raise Fail('tuple fields')
                    e = ('EField', [], e, self.ts[a:self.i]); continue
                if self.isP('::'):
                    self.next(); self.generics()
                m = self.ts[a:self.i]
                if self.isG('('):
                    g = self.next()
                    es, cs = comma_exprs(g[2])
                    e = ('EMethodCall', [], e, m, (g[3], g[4]), es, cs)
                else:
                    e = ('EField', [], e, m)
            elif self.isG('['):
                g = self.next()
                p = P(g[2])
                i = p.expr()
                if not p.end():
                    raise Fail('index')
                e = ('EIndex', [], e, (g[3], g[4]), i)
            elif self.isP('?'):
                t = self.next()
                e = ('ETry', [], e, (t[2], t[3]))
            else:
                return e

    def block(self):
        """(span, stmts, inner attributes)"""
        g = self.group('{')
        p = P(g[2])
        inner = p.attrs(True)
        return (g[3], g[4]), p.stmts(), inner

    def atom(self, struct):
        t = self.peek()
        if t is None:
            raise Fail('expression')
        a = self.i
        if t[0] == 'L':
            self.next()
            return ('ELit', [], t[1], (t[2], t[3]))
        if t[0] == 'G':
            if t[1] == '(':
                self.next()
                p = P(t[2])
                if p.end():
                    return ('ETuple', [], (t[3], t[4]), [], [])
                first = p.expr()
                if p.end():
                    return ('EParen', [], (t[3], t[4]), first)
                es, cs = comma_exprs(t[2])
                return ('ETuple', [], (t[3], t[4]), es, cs)
            if t[1] == '[':
                self.next()
                p = P(t[2])
                if not p.end():
                    first = p.expr()
                    if p.isP(';'):
                        semi = [p.next()]
                        n = p.expr()
                        if not p.end():
                            raise Fail('repeat')
                        return ('ERepeat', [], (t[3], t[4]), first, semi, n)
                es, cs = comma_exprs(t[2])
                return ('EArray', [], (t[3], t[4]), es, cs)
            if t[1] == '{':
                sp, b, inner = self.block()
                return ('EBlock', inner, [], sp, b)
        if t[0] == 'P':
            if t[1] in ('|', '||'):
                return self.closure(struct)
            if t[1] in ('..', '..='):
                self.next()
                hi = self.range_end(struct)
                return ('ERange', [], None, [t], hi)
            if t[1] == '<':
                return self.qualified()
            if t[1] == "'":
                self.next(); self.next(); self.eat(':')
                lbl = self.ts[a:self.i]
                e = self.atom(struct)
                return label(e, lbl)
            if t[1] != '::':
                raise Fail('expression: %r' % (t,))
        w = t[1]
        if t[0] == 'I':
            if w in ('true', 'false'):
                self.next()
                return ('ELit', [], ('ident', w), (t[2], t[3]))
            if w == '_':
                self.next()
                return ('EInfer', [], [t])
            if w in ('move', 'static') or (w == 'async' and (self.isP('|', 1) or self.isP('||', 1) or (self.isI('move', 1) and not self.isG('{', 2)))):
                return self.closure(struct)
            if w == 'for' and self.isP('<', 1):
                return self.closure(struct)
            if w == 'async':
                self.next()
                if self.isI('move'):
                    self.next()
                kw = self.ts[a:self.i]
                sp, b, inner = self.block()
                return ('EAsync', inner, kw, sp, b)
            if w in ('unsafe', 'const', 'try') and self.isG('{', 1):
                self.next()
                sp, b, inner = self.block()
                return ({'unsafe': 'EUnsafe', 'const': 'EConst', 'try': 'ETryBlock'}[w], inner, [t], sp, b)
            if w == 'loop':
                self.next()
                sp, b, inner = self.block()
                return ('ELoop', inner, [t], sp, b)
            if w == 'while':
                self.next()
                c = self.cond()
                sp, b, inner = self.block()
                return ('EWhile', inner, [t], c, sp, b)
            if w == 'for':
                self.next()
                self.until(lambda p: p.isI('in'))
                self.kw('in')
                kw = self.ts[a:self.i]
                e = self.expr(False)
                sp, b, inner = self.block()
                return ('EForLoop', inner, kw, e, sp, b)
            if w == 'if':
                self.next()
                c = self.cond()
                sp, b, inner = self.block()
                if inner:
                    raise Fail('inner attributes')
                ek, el = [], None
                if self.isI('else'):
                    ek = [self.next()]
                    if self.isI('if') or self.isG('{'):
                        el = self.atom(struct)
                    else:
                        raise Fail('else')
                return ('EIf', [], [t], c, sp, b, ek, el)
            if w == 'match':
                self.next()
                e = self.expr(False)
                g = self.group('{')
                p = P(g[2])
                inner = p.attrs(True)
                arms = []
                while not p.end():
                    arms.append(p.arm())
                return ('EMatch', inner, [t], e, (g[3], g[4]), arms)
            if w == 'let':
                self.next()
                self.until(lambda p: p.isP('='))
                self.eat('=')
                kw = self.ts[a:self.i]
                # not over && and ||
                return ('ELet', [], kw, self.binary(self.unary(False), False, 5))
            if w == 'return':
                self.next()
                return ('EReturn', [], (t[2], t[3]), self.opt_expr(struct))
            if w in ('break', 'continue'):
                self.next()
                if self.isP("'") and not self.isP(':', 2):
                    self.next(); self.next()
                kw = self.ts[a:self.i]
                return ('EContinue', [], kw) if w == 'continue' else ('EBreak', [], kw, self.opt_expr(struct))
            if w == 'yield':
                self.next()
                return ('EYield', [], [t], self.opt_expr(struct))
        p = self.path()
        if self.isP('!') and self.peek(1) is not None and self.peek(1)[0] == 'G':
            self.next()
            g = self.next()
            return ('EMacro', [], mac(p, g))
        if struct and self.isG('{'):
            return self.struct(p)
        return ('EPath', [], p)

    def opt_expr(self, struct):
        t = self.peek()
        if t is None or (t[0] == 'P' and t[1] in (',', ';', '=>', '?', '.')) or (t[0] == 'G' and t[1] == '{' and not struct):
            return None
        return self.expr(struct)

    def range_end(self, struct):
        t = self.peek()
        if t is None or (t[0] == 'P' and t[1] in (',', ';', '=>', '.')) or (t[0] == 'G' and t[1] == '{' and not struct):
            return None
        return self.binary(self.unary(struct), struct, 3)

    def cond(self):
        return self.expr(False)

    def qualified(self):
        """<T as Trait>::f: kept as tokens (the model has no qualified paths)"""
        a = self.i
        self.generics()
        while self.isP('::'):
            self.next()
            if self.isP('<'):
                self.generics()
            else:
                self.next()
        return ('EVerbatim', self.ts[a:self.i])

    def closure(self, struct):
        a = self.i
        while not (self.isP('|') or self.isP('||')):
            if self.isP('<'):
                self.generics()
            else:
                self.next()
        if self.isP('||'):
            self.next()
        else:
            self.next()
            self.until(lambda p: p.isP('|'))
            self.eat('|')
        if self.isP('->'):
            self.next()
            ty, path = self.type()
            hd = self.ts[a:self.i]
            sp, b, inner = self.block()
            return ('EClosure', [], hd, ('RetPath', path) if path else ('RetOther',), ('EBlock', inner, [], sp, b))
        hd = self.ts[a:self.i]
        return ('EClosure', [], hd, ('RetNone',), self.expr(struct))

    def struct(self, p):
        g = self.group('{')
        q = P(g[2])
        fs, cs, dots, rest = [], [], [], None
        while not q.end():
            if q.isP('..'):
                dots = [q.next()]
                if not q.end():
                    rest = q.expr()
                break
            at = q.attrs()
            m = q.next()
            if m[0] not in 'IL':
                raise Fail('field')
            if q.isP(':'):
                colon = [q.next()]
                fs.append(('FieldV', at, [m], colon, q.expr()))
            else:
                if m[0] != 'I':
                    raise Fail('field')
                fs.append(('FieldV', at, [m], [], ('EPath', [], ('path', False, [(m[1], [], (m[2], m[3]))]))))
            if q.end():
                break
            cs.append(q.eat(','))
        if not q.end():
            raise Fail('struct')
        return ('EStruct', [], p, (g[3], g[4]), fs, cs, dots, rest)

    def arm(self):
        at = self.attrs()
        pat = self.until(lambda p: p.isP('=>') or p.isI('if'))
        ik, guard = [], None
        if self.isI('if'):
            ik = [self.next()]
            guard = self.expr()
        arrow = [self.eat('=>')]
        body = self.expr_early()
        comma = []
        if self.isP(','):
            comma = [self.next()]
        elif not self.end() and not blocklike(body):
            raise Fail('arm')
        return ('Arm', at, pat, ik, guard, arrow, body, comma)

    def binary(self, l, struct, minp):
        while True:
            t = self.peek()
            if t is None:
                return l
            op = t[1] if t[0] == 'P' or (t[0] == 'I' and t[1] == 'as') else None
            pr = PREC.get(op)
            if pr is None or pr < minp:
                return l
            if op == 'as':
                self.next()
                ty, _ = self.type()
                l = ('ECast', [], l, [t] + ty)
            elif op in ('..', '..='):
                self.next()
                l = ('ERange', [], l, [t], self.range_end(struct))
            elif pr == 1:
                self.next()
                r = self.binary(self.unary(struct), struct, 1)
                l = ('EAssign', [], l, [t], r) if op == '=' else ('EBinary', [], l, [t], r)
            else:
                self.next()
                r = self.binary(self.unary(struct), struct, pr + 1)
                if pr == 5 and self.peek() is not None and self.peek()[0] == 'P' and PREC.get(self.peek()[1]) == 5:
                    raise Fail('comparison')
                l = ('EBinary', [], l, [t], r)

    # ---- statements
    def stmts(self):
        out = []
        while True:
            while self.isP(';'):
                t = self.next()
                out.append(('SExpr', ('EVerbatim', []), (t[2], t[3])))
            if self.end():
                return out
            s = self.stmt(True)
            out.append(s)
            if self.end():
                return out
            if needs_semi(s):
                raise Fail('missing semicolon')

    def stmt(self, nosemi):
        attrs = self.attrs()
        q = self.fork()
        item_macro = False
        try:
            p = q.path(mod_style=True)
            if q.isP('!'):
                if q.isI(None, 1):
                    item_macro = True
                elif q.isG('{', 1) and not (q.isP('.', 2) or q.isP('?', 2)):
                    q.next()
                    g = q.next()
                    semi = [q.next()] if q.isP(';') else []
                    self.i, self.ts = q.i, q.ts
                    return ('SMacro', attrs, mac(p, g), semi)
        except Fail:
            pass
        if self.isI('let'):
            return self.local(attrs)
        if item_macro or self.item_ahead():
            return ('SItem', self.item(attrs))
        e = self.expr_early()
        target = [e]
        e = attach(e, attrs)
        semi = None
        if self.isP(';'):
            t = self.next(); semi = (t[2], t[3])
            semitok = [t]
        if e[0] == 'EMacro' and (semi is not None or e[2][2] == '{'):
            return ('SMacro', e[1], e[2], semitok if semi is not None else [])
        if semi is None and not nosemi and not blocklike(e):
            raise Fail('semicolon')
        return ('SExpr', e, semi)

    def local(self, attrs):
        a = self.i
        self.next()
        depth = 0

        def stop(p):
            return p.isP('=') or p.isP(';')
        self.until(stop)
        if self.isP(';'):
            pat = self.ts[a:self.i]
            return ('SLocal', attrs, pat, [self.next()])
        self.eat('=')
        pat = self.ts[a:self.i]
        e = self.expr()
        ek, el = [], None
        if self.isI('else'):
            ek = [self.next()]
            sp, b, inner = self.block()
            el = ('EBlock', inner, [], sp, b)
        semi = [self.eat(';')]
        return ('SLocalInit', attrs, pat, e, ek, el, semi)

    def item_ahead(self):
        k = 0
        if self.isI('pub'):
            return True
        t = self.peek(k)
        if t is None or t[0] != 'I':
            return False
        w = t[1]
        if w in ('use', 'struct', 'enum', 'type', 'mod', 'impl', 'trait', 'fn'):
            return True
        if w == 'union':
            return self.isI(None, 1)
        if w == 'static':
            return not (self.isP('|', 1) or self.isP('||', 1) or self.isI('move', 1))
        if w == 'const':
            return self.isI(None, 1) and not (self.isI('move', 1))
        if w == 'unsafe':
            return self.isI(None, 1)
        if w == 'async':
            return self.isI('fn', 1) or self.isI('unsafe', 1)
        if w == 'extern':
            return True
        return False

    # ---- items
    def sig(self):
        """after the visibility; None if it is no function"""
        q = self.fork()
        a = q.i
        while q.isI('const') or q.isI('async') or q.isI('unsafe') or q.isI('extern') or (q.peek() is not None and q.peek()[0] == 'L'):
            q.next()
        if not q.isI('fn'):
            return None
        q.next()
        name = q.next()[1]
        if q.isP('<'):
            q.generics()
        q.group('(')
        out = ('RetNone',)
        if q.isP('->'):
            q.next()
            ty, path = q.type()
            if path is None and len(ty) == 1 and ty[0][0] == 'G' and ty[0][1] == '(':
                path = None
            out = ('RetPath', path) if path else ('RetOther',)
        if q.isI('where'):
            q.until(lambda p: p.isG('{') or p.isP(';'))
        toks = q.ts[a:q.i]
        self.i, self.ts = q.i, q.ts
        return ('sig', name, out, toks)

    def vis(self):
        a = self.i
        if self.isI('pub'):
            self.next()
            if self.isG('('):
                self.next()
        return self.ts[a:self.i]

    def items(self):
        out = []
        while not self.end():
            out.append(self.item(self.attrs()))
        return out

    def item(self, attrs):
        a = self.i
        vis = self.vis()
        s = self.sig()
        if s is not None:
            sp, b, inner = self.block()
            return ('IFn', attrs + inner, vis, s, sp, b)
        if self.isI('impl') or (self.isI('unsafe') and self.isI('impl', 1)):
            self.until(lambda p: p.isG('{'))
            hd = self.ts[a:self.i]
            g = self.next()
            p = P(g[2])
            inner = p.attrs(True)
            its = []
            while not p.end():
                its.append(p.impl_item())
            return ('IImpl', attrs + inner, hd, (g[3], g[4]), its)
        if self.isI('trait') or (self.isI('unsafe') and self.isI('trait', 1)):
            self.until(lambda p: p.isG('{') or p.isP('='))
            hd = self.ts[a:self.i]
            g = self.group('{')
            p = P(g[2])
            inner = p.attrs(True)
            its = []
            while not p.end():
                its.append(p.trait_item())
            return ('ITrait', attrs + inner, hd, (g[3], g[4]), its)
        if self.isI('mod'):
            self.next(); self.next()
            if self.isP(';'):
                self.next()
                return ('IOther', attrs, self.ts[a:self.i])
            hd = self.ts[a:self.i]
            g = self.group('{')
            p = P(g[2])
            inner = p.attrs(True)
            return ('IMod', attrs + inner, hd, (g[3], g[4]), p.items())
        if self.isI('const') or self.isI('static'):
            w = self.next()[1]
            self.until(lambda p: p.isP('=') or p.isP(';'))
            self.eat('=')
            hd = self.ts[a:self.i]
            e = self.expr()
            return ('IConst' if w == 'const' else 'IStatic', attrs, hd, e, [self.eat(';')])
        if self.isI('use') or self.isI('type') or self.isI('extern'):
            self.until(lambda p: p.isP(';') or p.isG('{') and not p.ts[a][1] == 'use')
            self.next()
            return ('IOther', attrs, self.ts[a:self.i])
        if self.isI('struct') or self.isI('enum') or (self.isI('union') and self.isI(None, 1)):
            self.until(lambda p: p.isP(';') or p.isG('{'))
            self.next()
            return ('IOther', attrs, self.ts[a:self.i])
        if vis:
            raise Fail('item')
        p = self.path(mod_style=True)
        self.eat('!')
        name = self.next()[1] if self.isI() else None
        g = self.next()
        if g[0] != 'G':
            raise Fail('item macro')
        semi = []
        if g[1] != '{':
            semi = [self.eat(';')]
        return ('IMacro', attrs, name, mac(p, g), semi)

    def impl_item(self):
        attrs = self.attrs()
        a = self.i
        vis = self.vis()
        if self.isI('default'):
            self.next(); vis = self.ts[a:self.i]
        s = self.sig()
        if s is not None:
            sp, b, inner = self.block()
            return ('IIFn', attrs + inner, vis, s, sp, b)
        if self.isI('const'):
            self.until(lambda p: p.isP('='))
            self.eat('=')
            hd = self.ts[a:self.i]
            e = self.expr()
            return ('IIConst', attrs, hd, e, [self.eat(';')])
        if self.isI('type'):
            self.until(lambda p: p.isP(';'))
            self.next()
            return ('IIOther', attrs, self.ts[a:self.i])
        p = self.path(mod_style=True)
        self.eat('!')
        g = self.next()
        semi = [self.next()] if self.isP(';') else []
        return ('IIMacro', attrs, mac(p, g), semi)

    def trait_item(self):
        attrs = self.attrs()
        a = self.i
        s = self.sig()
        if s is not None:
            if self.isP(';'):
                self.next()
                return ('TIOther', attrs, self.ts[a:self.i])
            sp, b, inner = self.block()
            return ('TIFn', attrs + inner, s, sp, b)
        if self.isI('const'):
            self.until(lambda p: p.isP('=') or p.isP(';'))
            if self.isP(';'):
                self.next()
                return ('TIOther', attrs, self.ts[a:self.i])
            self.eat('=')
            hd = self.ts[a:self.i]
            e = self.expr()
            return ('TIConst', attrs, hd, e, [self.eat(';')])
        if self.isI('type'):
            self.until(lambda p: p.isP(';'))
            self.next()
            return ('TIOther', attrs, self.ts[a:self.i])
        p = self.path(mod_style=True)
        self.eat('!')
        g = self.next()
        semi = [self.next()] if self.isP(';') else []
        return ('TIMacro', attrs, mac(p, g), semi)


def blocklike(e):
    """no semicolon needed after it as a statement"""
    return e[0] in ('EIf', 'EMatch', 'EBlock', 'EUnsafe', 'EWhile', 'ELoop', 'EForLoop', 'ETryBlock', 'EConst')


def needs_semi(s):
    return s[0] == 'SExpr' and s[2] is None and not blocklike(s[1]) and s[1][0] != 'EVerbatim'


def with_attrs(e, attrs):
    if not attrs:
        return e
    if e[0] == 'EVerbatim':
        raise Fail('attributes on verbatim')
    return (e[0], attrs + e[1]) + e[2:]


def attach(e, attrs):
    """syn, stmt_expr: attributes of a statement go to the leftmost operand"""
    if not attrs:
        return e
    if e[0] in ('EAssign', 'EBinary', 'ECast'):
        return (e[0], e[1], attach(e[2], attrs)) + e[3:]
    return with_attrs(e, attrs)


def label(e, lbl):
    if e[0] == 'EBlock':
        return ('EBlock', e[1], lbl) + e[3:]
    if e[0] in ('ELoop', 'EWhile', 'EForLoop'):
        return (e[0], e[1], lbl + e[2]) + e[3:]
    raise Fail('label')


def comma_exprs(ts):
    p = P(ts)
    es, cs = [], []
    while not p.end():
        es.append(p.expr())
        if p.end():
            break
        cs.append(p.eat(','))
    return es, cs


def meta(ts):
    p = P(ts)
    if p.isI('unsafe'):
        raise Fail('unsafe attribute')
    path = meta_path(p)
    if p.end():
        return ('MPath', path)
    if p.isP('='):
        p.next()
        return ('MNameValue', path, mvalue(ts[p.i:]))
    g = p.next()
    if g[0] != 'G' or not p.end():
        raise Fail('attribute')
    return ('MList', path, g[1], g[2], (g[3], g[4]))


def meta_path(p):
    lead = False
    if p.isP('::'):
        p.next(); lead = True
    segs = []
    while True:
        t = p.next()
        if t[0] != 'I':
            raise Fail('attribute path')
        segs.append((t[1], [], (t[2], t[3])))
        if p.isP('::'):
            p.next()
        else:
            return ('path', lead, segs)


def mvalue(ts):
    if len(ts) == 1 and ts[0][0] == 'L' and ts[0][1][0] == 'str':
        return ('VStr', ts[0][1][1], (ts[0][2], ts[0][3]))
    try:
        p = P(ts)
        q = p.path()
        if p.end():
            return ('VPath', q)
    except Fail:
        pass
    p = P(ts)
    p.expr()
    if not p.end():
        raise Fail('value')
    return ('VOther', ts)


def mac(path, g):
    return ('Mac', path, g[1], (g[3], g[4]), g[2], view(g[2]))


def view(ts):
    """walk_macro.rs: EvaluableList; None when it does not parse"""
    p = P(ts)
    out = []
    try:
        while not p.end():
            ev = evaluable(p)
            punct = [p.next()] if p.isP(',') or p.isP(';') else []
            out.append(ev + (punct,))
    except Fail:
        return None
    return out


def evaluable(p):
    def done(q):
        return q.end() or q.isP(';') or q.isP(',')
    q = p.fork()
    try:                                    # File: shebang is not possible here; always to the end
        inner = q.attrs(True)
        its = q.items()
        p.i, p.ts = q.i, q.ts
        return ('VFile', inner, its)
    except Fail:
        pass
    for kind, f in (('VItem', lambda q: q.item(q.attrs())), ('VExpr', lambda q: q.expr()), ('VStmt', lambda q: q.stmt(False))):
        q = p.fork()
        try:
            x = f(q)
            if done(q):
                p.i, p.ts = q.i, q.ts
                return (kind, x)
        except Fail:
            pass
    raise Fail('evaluable')
