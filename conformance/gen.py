"""Writes rocq/theories/Recorded_*.v from the recorded expansions in the repository.

    python3 conformance/gen.py /repo

For every X.rs with a recording X.expanded.rs, every item with a #[hooq] attribute is parsed into the syntax tree of the model
(rust.py), and the tokens recorded for it become the expected answer.
"""
import os
import re
import sys
import tomllib

sys.path.insert(0, os.path.dirname(__file__))
from rust import *  # noqa

REPO = sys.argv[1] if len(sys.argv) > 1 else '/repo'
OUT = os.path.join(os.path.dirname(os.path.abspath(__file__)), '..', 'rocq', 'theories')

# ------------------------------------------------------------------------------------------ Coq terms
DEL = {'(': 'Parenth', '{': 'Brace', '[': 'Bracket'}


def cs(s):
    """a Coq string; characters outside ASCII are written as UTF-8 bytes by Coq itself"""
    return '"' + s.replace('"', '""') + '"'


def clit(x):
    k, v = x
    if k == 'str':
        return 'LStr ' + cs(v)
    if k == 'usize':
        return 'LUsize %d' % v
    return 'LOther ' + cs(v)


def tok(t):
    if t[0] == 'I':
        return 'I S %s %d %d' % (cs(t[1]), t[2], t[3])
    if t[0] == 'P':
        return 'O S %s %d %d' % (cs(t[1]), t[2], t[3])
    if t[0] == 'L':
        return 'L S (%s) %d %d' % (clit(t[1]), t[2], t[3])
    return 'G S %s %s %d %d' % (DEL[t[1]], toks(t[2], False), t[3], t[4])


def toks(ts, exp=True):
    if exp:
        ts = explode(ts)
    return '[' + '; '.join(tok(t) for t in ts) + ']'


def sp(x):
    return '(S %d %d)' % x


def path(p):
    return '(mk_path %s [%s])' % ('true' if p[1] else 'false', '; '.join('mk_seg %s %s %s' % (cs(n), toks(a), sp(s)) for n, a, s in p[2]))


def lst(f, l):
    return '[' + '; '.join(f(x) for x in l) + ']'


def opt(f, x):
    return 'None' if x is None else '(Some %s)' % f(x)


def cmeta(m):
    if m[0] == 'MPath':
        return '(MPath %s)' % path(m[1])
    if m[0] == 'MList':
        return '(MList %s %s %s %s)' % (path(m[1]), DEL[m[2]], toks(m[3]), sp(m[4]))
    v = m[2]
    cv = '(VPath %s)' % path(v[1]) if v[0] == 'VPath' else '(VStr %s %s)' % (cs(v[1]), sp(v[2])) if v[0] == 'VStr' else '(VOther %s)' % toks(v[1])
    return '(MNameValue %s %s)' % (path(m[1]), cv)


def attr(a):
    return 'mk_attr %s %s %s' % ('true' if a[1] else 'false', sp(a[2]), cmeta(a[3]))


def ret(r):
    return '(RetPath %s)' % path(r[1]) if r[0] == 'RetPath' else r[0]


def sig(s):
    return '(mk_sig %s %s %s)' % (cs(s[1]), ret(s[2]), toks(s[3]))


def mac_(m):
    return '(Mac %s %s %s %s %s)' % (path(m[1]), DEL[m[2]], sp(m[3]), toks(m[4]), 'None' if m[5] is None else '(Some %s)' % lst(ev, m[5]))


def ev(v):
    if v[0] == 'VFile':
        return 'VFile %s %s %s' % (lst(attr, v[1]), lst(node, v[2]), toks(v[3]))
    return '%s %s %s' % (v[0], node(v[1]), toks(v[2]))


# argument kinds of every constructor of Syntax.v
SHAPE = {
    'EArray': 'A s E* T', 'EAssign': 'A E T E', 'EAsync': 'A T s E*', 'EAwait': 'A E T', 'EBinary': 'A E T E', 'EBlock': 'A T s E*', 'EBreak': 'A T E?',
    'ECall': 'A E s E* T', 'ECast': 'A E T', 'EClosure': 'A T r E', 'EConst': 'A T s E*', 'EContinue': 'A T', 'EField': 'A E T', 'EForLoop': 'A T E s E*',
    'EGroup': 'A s E', 'EIf': 'A T E s E* T E?', 'EIndex': 'A E s E', 'EInfer': 'A T', 'ELet': 'A T E', 'ELit': 'A l s', 'ELoop': 'A T s E*', 'EMacro': 'A m',
    'EMatch': 'A T E s E*', 'EMethodCall': 'A E T s E* T', 'EParen': 'A s E', 'EPath': 'A p', 'ERange': 'A E? T E?', 'ERawAddr': 'A T E', 'EReference': 'A T E',
    'ERepeat': 'A s E T E', 'EReturn': 'A s E?', 'EStruct': 'A p s E* T T E?', 'ETry': 'A E s', 'ETryBlock': 'A T s E*', 'ETuple': 'A s E* T', 'EUnary': 'A T E',
    'EUnsafe': 'A T s E*', 'EWhile': 'A T E s E*', 'EYield': 'A T E?', 'EVerbatim': 'T',
    'SLocal': 'A T T', 'SLocalInit': 'A T E T E? T', 'SItem': 'E', 'SExpr': 'E s?', 'SMacro': 'A m T',
    'IFn': 'A T g s E*', 'IImpl': 'A T s E*', 'IMod': 'A T s E*', 'IConst': 'A T E T', 'IStatic': 'A T E T', 'ITrait': 'A T s E*', 'IMacro': 'A n? m T', 'IOther': 'A T',
    'IIFn': 'A T g s E*', 'IIConst': 'A T E T', 'IIMacro': 'A m T', 'IIOther': 'A T', 'TIConst': 'A T E T', 'TIFn': 'A g s E*', 'TIMacro': 'A m T', 'TIOther': 'A T',
    'Arm': 'A T T E? T E T', 'FieldV': 'A T T E'}


def node(e):
    if e[0] == 'ELit' and e[2][0] == 'ident':                   # true, false print as identifiers
        return '(EPath %s (mk_path false [mk_seg %s [] %s]))' % (lst(attr, e[1]), cs(e[2][1]), sp(e[3]))
    out = [e[0]]
    for k, x in zip(SHAPE[e[0]].split(), e[1:]):
        out.append({'A': lambda x: lst(attr, x), 'E': node, 'T': toks, 's': sp, 'E*': lambda x: lst(node, x), 'E?': lambda x: opt(node, x), 'r': ret,
                    'l': lambda x: '(%s)' % clit(x), 'm': mac_, 'p': path, 'g': sig, 's?': lambda x: opt(sp, x), 'n?': lambda x: opt(cs, x)}[k](x))
    return '(' + ' '.join(out) + ')'


# ------------------------------------------------------------------------------------------ pairing
def path_names(p):
    return [s[0] for s in p[2]]


def is_hooq(a):
    m = a[3]
    return path_names(m[1])[-1] == 'hooq' and len(m[1][2]) <= 2


def is_test(it):
    return any(path_names(a[3][1]) == ['test'] or (path_names(a[3][1]) == ['cfg'] and flat(a[3][3]) == ['test']) for a in it[1])


def key(it):
    k = it[0]
    if k == 'IFn':
        return ('fn', it[3][1])
    if k in ('IMod', 'IImpl', 'ITrait', 'IConst', 'IStatic'):
        return (k, ' '.join(flat(it[2])))
    if k == 'IMacro':
        return (k, it[2])
    return (k, ' '.join(flat(it[2])))


class Raw(P):
    """items with the token range they come from"""

    def raw_items(self):
        out = []
        while not self.end():
            a = self.i
            it = self.item(self.attrs())
            out.append((it, self.ts[a:self.i]))
        return out


def raw(ts):
    p = Raw(ts)
    p.attrs(True)
    return p.raw_items()


def configured(it):
    """rustc has resolved cfg_attr before the macro runs; no feature of a test crate is on"""
    out = []
    for a in it[1]:
        m = a[3]
        if m[0] == 'MList' and path_names(m[1]) == ['cfg_attr']:
            if m[3][0][:2] != ('I', 'not'):
                continue
            k = next(i for i, t in enumerate(m[3]) if t[:2] == ('P', ','))
            a = a[:3] + (meta(m[3][k + 1:]),)
        out.append(a)
    return (it[0], out) + it[2:]


def pairs(src, rec, prefix=()):
    """(name, item, recorded tokens)"""
    src = [(configured(s[0]), s[1]) for s in raw(src) if not is_test(s[0])]
    rec = raw(rec)
    i = 0
    out = []
    for it, ts in src:
        hooks = [a for a in it[1] if is_hooq(a)]
        start = i
        # what stands before it in the recording: trait uses
        j = i
        while j < len(rec) and key(rec[j][0]) != key(it):
            j += 1
        if j == len(rec):
            if hooks:
                out.append(('/'.join(prefix + (key(it)[1],)), it, None))
            continue
        if hooks:
            k = j
            while k > i and rec[k - 1][0][0] == 'IOther' and flat(rec[k - 1][1])[-3:] == ['as', '_', ';']:
                k -= 1
            out.append(('/'.join(prefix + (key(it)[1],)), it, [t for r in rec[k:j + 1] for t in r[1]]))
        elif it[0] == 'IMod':
            g = [t for t in ts if t[0] == 'G' and t[1] == '{'][-1]
            h = [t for t in rec[j][1] if t[0] == 'G' and t[1] == '{'][-1]
            out += pairs(g[2], h[2], prefix + (key(it)[1],))
        i = j + 1
    return out


def strings(ts):
    for t in ts:
        if t[0] == 'L' and t[1][0] == 'str':
            yield t[1][1]
        elif t[0] == 'G':
            yield from strings(t[2])


def lines(ws, width=150):
    out, cur = [], ''
    for w in ws:
        if cur and len(cur) + 1 + len(w) > width:
            out.append(cur); cur = w
        else:
            cur = cur + ' ' + w if cur else w
    if cur:
        out.append(cur)
    return out


# ------------------------------------------------------------------------------------------ hooq.toml
def ostr(x):
    return '(Some %s)' % cs(x) if x is not None else 'None'


def olist(x):
    return '(Some %s)' % lst(cs, x) if x is not None else 'None'


TKEYS = ['trait_uses', 'method', 'hook_targets', 'tail_expr_idents', 'ignore_tail_expr_idents', 'result_types', 'hook_in_macros', 'bindings']


def ftable(t, texts):
    for s in t.get('trait_uses', []) + ([t['method']] if 'method' in t else []):
        texts.add(s)
    b = {k: v for k, v in t.get('bindings', {}).items()}
    for v in b.values():
        texts.add(v)
    core = '(mk_tcore %s %s %s %s %s %s %s %s)' % (
        lst(cs, t.get('trait_uses', [])), ostr(t.get('method')), olist(t.get('hook_targets')), olist(t.get('tail_expr_idents')),
        olist(t.get('ignore_tail_expr_idents')), olist(t.get('result_types')),
        'None' if 'hook_in_macros' not in t else '(Some %s)' % str(t['hook_in_macros']).lower(),
        '[' + '; '.join('(%s, %s)' % (cs(k), cs(v)) for k, v in b.items()) + ']')
    subs = [(k, v) for k, v in t.items() if k not in TKEYS]
    return 'FTable %s [%s]' % (core, '; '.join('(%s, %s)' % (cs(k), ftable(v, texts)) for k, v in subs))


def find_toml(d):
    if not os.path.exists(os.path.join(d, 'Cargo.toml')) and os.path.exists(os.path.join(d, 'hooq.toml')):
        return os.path.join(d, 'hooq.toml')                    # built outside of cargo
    while len(d) > len(REPO):
        if os.path.exists(os.path.join(d, 'Cargo.toml')):
            f = os.path.join(d, 'hooq.toml')
            return f if os.path.exists(f) else None
        d = os.path.dirname(d)
    return None


def cargo(d):
    while len(d) > len(REPO):
        f = os.path.join(d, 'Cargo.toml')
        if os.path.exists(f):
            return tomllib.load(open(f, 'rb'))
        d = os.path.dirname(d)
    return {}


# ------------------------------------------------------------------------------------------ main
def collect():
    out = []
    for d, _, fs in os.walk(REPO):
        if '/target' in d or '/.git' in d:
            continue
        for f in fs:
            if f.endswith('.expanded.rs'):
                src = os.path.join(d, f.replace('.expanded.rs', '.rs'))
                if os.path.exists(src):
                    out.append(src)
    return sorted(out)


def ident(s):
    return re.sub(r'\W+', '_', s).strip('_')


def one(src):
    """Coq text of the file, [(name, ok)]"""
    rel = os.path.relpath(src, REPO)
    text, rec = open(src).read(), open(src.replace('.rs', '.expanded.rs')).read()
    ends = {}
    st, rt = lex(text, ends), lex(rec)
    rr = raw(rt)
    if len(rr) == 1 and rr[0][0][0] == 'IMod' and key(rr[0][0])[1].split()[-1] == os.path.basename(src)[:-3]:
        rt = rr[0][1][-1][2]                                    # the recording of `mod name;`
    ps = pairs(st, rt)
    base = ident(re.sub(r'^(hooq-macros/tests|mdbook-source-code)/', '', rel)[:-3].replace('/src/', '/').replace('/tests/tests_inner', ''))
    m = re.search(r'"([^"]*%s)"' % re.escape(os.path.basename(rel)), rec)
    shown = [x for x in strings(lex(rec)) if x.endswith('/' + os.path.basename(rel)) and ' ' not in x]
    fname = shown[0] if shown else rel
    tm = find_toml(os.path.dirname(src))
    texts = set()
    doc = '[]'
    if tm:
        t = tomllib.load(open(tm, 'rb'))
        doc = '[' + '; '.join('(%s, %s)' % (cs(k), ftable(v, texts)) for k, v in t.items()) + ']'
    cg = str(cargo(os.path.dirname(src)).get('dependencies', {})) + str(cargo(os.path.dirname(src)).get('dev-dependencies', {}))
    feats = ' '.join('true' if re.search(r"['\"]%s['\"]" % x, cg) else 'false' for x in ('consume-question', 'log', 'anyhow', 'eyre', 'tracing'))
    crate = 'hooq'
    v = ['(** ** %s *)' % rel]
    v.append('Definition doc_%s : list (string * ftable) := %s.' % (base, doc))
    v.append('Definition texts_%s : list (string * list tt) := let S := at_ "" in [%s].' % (base, ';\n  '.join('(%s, %s)' % (cs(s), toks(lex(s))) for s in sorted(texts))))
    names = []
    table = {}
    body = []
    for n, (nm, it, ts) in enumerate(ps):
        if ts is None:
            names.append((base, nm, 'no recording')); continue
        hooks = [a for a in it[1] if is_hooq(a)]
        i0 = it[1].index(hooks[0])
        args = hooks[0][3]
        metas = []
        if args[0] == 'MList':
            cur = []
            for t in args[3] + [('P', ',', 0, 0)]:
                if t[0] == 'P' and t[1] == ',':
                    if cur:
                        metas.append(meta(cur))
                    cur = []
                else:
                    cur.append(t)
        it = (it[0], it[1][:i0] + it[1][i0 + 1:]) + it[2:]
        for s in strings(ts):
            try:
                k = ' '.join(flat(lex(s)))
            except Exception:
                continue
            if k and k != s:
                table[k] = s
        nn = '%s_%d' % (base, n)
        body.append('Definition it_%s : item := let S := at_ %s in\n  %s.' % (nn, cs(fname), node(it)))
        body.append('Definition args_%s : list meta := let S := at_ %s in %s.' % (nn, cs(fname), lst(cmeta, metas)))
        body.append('Definition rec_%s : list string :=\n  [%s].' % (nn, ';\n   '.join(cs(l) for l in lines(flat(ts)))))
        names.append((base, nm, nn))
    v.append('Definition strs_%s : list (string * string) :=\n  [%s].' % (base, ';\n   '.join('(%s, %s)' % (cs(a), cs(b)) for a, b in sorted(table.items()))))
    v.append('Definition ends_%s : list (N * N * (N * N * string)) :=\n  [%s].' % (base, '; '.join('(%d, %d, (%d, %d, %s))' % (k + v[:2] + (cs(v[2]),)) for k, v in sorted(ends.items()))))
    v.append('Definition su_%s : setup := mk_setup (mk_features %s %s) doc_%s texts_%s strs_%s [] ends_%s %s.' % (base, feats, cs(crate), base, base, base, base, cs(os.path.basename(src)[:-3])))
    return v + body, names


HEAD = '''(** Recorded expansions of the real macro: %s.  Generated by conformance/gen.py.  *)
From Coq Require Import String Ascii Bool Arith NArith List.
From Verif Require Import Base Tokens Method Paths Context Flavor Attrs Syntax Conformance.
Import ListNotations.
Open Scope string_scope.
Open Scope list_scope.
Open Scope N_scope.
'''

# items whose recording is changed by macros of other crates or of the file itself
SKIP = {
    'special_macro_1': 'macro_rules of the file and serde_json',
    'special_meta_var_line_0': 'line!() is answered by rustc',
}
SKIP.update(('special_other_preset_flavors_hooq_tracing_hooq_tracing_%d' % k, '#[instrument] of tracing') for k in range(6))

GROUPS = [
    ('Recorded_Expr', 'walker/expr', lambda r: '/walker/expr/' in r),
    ('Recorded_Item', 'walker/item and walker/stmt', lambda r: '/walker/item/' in r or '/walker/stmt/' in r),
    ('Recorded_Settings', 'special: settings, skips and presets', lambda r: '/special/' in r and '/meta_var/' not in r),
    ('Recorded_Vars', 'special: meta variables', lambda r: '/special/meta_var/' in r),
    ('Recorded_Book', 'the programs of the book', lambda r: r.startswith('mdbook-source-code')),
]


def options(ts):
    """the numbers of @name = number as integers that fit a usize"""
    out = []
    for i, t in enumerate(ts):
        if i > 2 and ts[i - 3][:2] == ('P', '@') and ts[i - 1][:2] == ('P', '=') and t[0] == 'L' and t[1][0] == 'other':
            t = ('L', ('usize', int(t[1][1]))) + t[2:]
        out.append(t)
    return out


def snapshots():
    """the stored answers of the excerpt macros"""
    d = os.path.join(REPO, 'hooq-macros/tests/special/source_excerpt_macros')
    ends = {}
    ts = lex(open(os.path.join(d, 'mod.rs')).read(), ends)
    out = ['Definition ends_snap : list (N * N * (N * N * string)) :=\n  [%s].' % '; '.join('(%d, %d, (%d, %d, %s))' % (k + v[:2] + (cs(v[2]),)) for k, v in sorted(ends.items()))]
    n = 0
    for i, t in enumerate(ts):
        if t[:2] != ('I', 'fn'):
            continue
        body = next(x for x in ts[i:] if x[0] == 'G' and x[1] == '{')[2]
        k = next(j for j, x in enumerate(body) if x[0] == 'I' and x[1] in ('pretty_stringify', 'one_line_stringify', 'excerpted_pretty_stringify'))
        name = [x for x in strings(body) if os.path.exists(os.path.join(d, 'snapshots', 'r#mod__special__source_excerpt_macros__%s.snap' % x))][-1]
        snap = open(os.path.join(d, 'snapshots', 'r#mod__special__source_excerpt_macros__%s.snap' % name)).read().split('---\n', 2)[2].strip('\n')
        out.append('Example snapshot_%s : let S := at_ "" in snapshot ends_snap %s\n  %s\n  = Some %s.\nProof. vm_compute. reflexivity. Qed.' % (
            name, cs(body[k][1]), toks(options(body[k + 2][2])), cs(snap)))
        n += 1
    return out, n


def main():
    total = skipped = 0
    for name, title, pred in GROUPS:
        text = [HEAD % title]
        for src in collect():
            rel = os.path.relpath(src, REPO)
            if not pred(rel):
                continue
            defs, names = one(src)
            good = [n for n in names if n[2] != 'no recording' and n[2] not in SKIP]
            for n in names:
                if n not in good:
                    skipped += 1
                    print('skipped', rel, n[1], SKIP.get(n[2], n[2]))
            if not good:
                print('nothing in', rel); continue
            keep = {n[2] for n in good}
            for dfn in defs:
                m = re.match(r'Definition (?:it|args|rec)_(\w+) ', dfn)
                if not m or m.group(1) in keep:
                    text.append(dfn)
            for base, nm, nn in good:
                text.append('(** %s *)\nExample recorded_%s : expanded su_%s args_%s it_%s = words rec_%s.\nProof. vm_compute. reflexivity. Qed.' % (nm.replace('*', ''), nn, base, nn, nn, nn))
                total += 1
        open(os.path.join(OUT, name + '.v'), 'w').write('\n'.join(text) + '\n')
    out, n = snapshots()
    open(os.path.join(OUT, 'Recorded_Excerpts.v'), 'w').write('\n'.join([HEAD % 'snapshots of the excerpt macros'] + out) + '\n')
    print(total, 'items', skipped, 'skipped', n, 'snapshots')


if __name__ == '__main__':
    main()
