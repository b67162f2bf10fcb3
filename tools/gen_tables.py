"""Generates theories/Tables.v from /repo: one Coq record per INP card, option
and entry class, with keyword, pattern, attributes and setter checks copied
from the source.  Nothing of /repo is imported or run."""
import ast
import os
import re
import sys

sys.path.insert(0, os.path.dirname(__file__))
from repo_tables import Resolver  # noqa: E402

R = Resolver()
OUT = os.path.join(os.path.dirname(__file__), '..', 'rocq', 'theories', 'Tables.v')

TYPES = {'Integer': ('TInt', 'pat_number'), 'Real': ('TReal', 'pat_number'), 'String': ('TStr', 'pat_string'),
         'Distribution': ('TDist', 'pat_distribution'), 'Zaid': ('TZaid', 'pat_zaid'),
         'Designator': ('TDesig', 'pat_designator'), 'Substance': ('TSub', 'pat_substance'),
         'Index': ('TIndex', 'pat_index'), 'Lattice': ('TLat', 'Lattice.pat_lattice')}
for i, n in enumerate((12, 9, 8, 6, 3)):
    TYPES['Transformation_%d' % i] = ('(TTr %d)' % i, '(pat_transformation %d)' % n)


class Skip(Exception):
    pass


# Classes with a to_mcnp of their own, and the expression it returns.
OWN = {
    'inp/Ds_1.py': ('OWord (L "t")', "f'ds{self.suffix} t {self.ijs}'"),
    'inp/Ds_2.py': ('OWord (L "q")', "f'ds{self.suffix} q {self.vss}'"),
    'inp/Ds_3.py': ('OWord (L "s")', "f'ds{self.suffix} s {self.distributions}'"),
    'inp/F_2.py': ('ORings', 'f\'{self.prefix if self.prefix is not None else ""}f{self.suffix}{self.a}{f":{self.designator}" if self.designator is not None else ""} {self.rings} {self.nd if self.nd is not None else ""}\''),
    'inp/ptrac/filter/Entry.py': ('OFilter', 'f\'{self.lower},{self.variable}{f",{self.upper}" if self.upper is not None else ""}\''),
    'inp/sdef/tme_1/Embedded.py': ('OChain', "'<'.join((number.to_mcnp() for number in self.distributions))"),
}


def own(k):
    f = k.methods.get('to_mcnp')
    if f is None:
        return None
    if k.file not in OWN:
        raise Skip('own to_mcnp')
    ret = [ast.unparse(b.value) for b in f.body if isinstance(b, ast.Return)]
    norm = ast.unparse(ast.parse(OWN[k.file][1], mode='eval'))
    assert ret == [norm], (ret, norm)
    return '(KOwn %s)' % ('(%s)' % OWN[k.file][0] if ' ' in OWN[k.file][0] else OWN[k.file][0])


def kind(k):
    seen = k
    while True:
        b = seen.bases[0].split('.')[-1]
        if b in ('Card', 'Option', 'Entry'):
            return {'Card': 'KCard', 'Option': 'KOption', 'Entry': 'KEntry'}[b]
        cands = [c for c in R.classes.values() if c.name == b and os.path.dirname(c.file) == os.path.dirname(k.file)]
        if not cands:
            raise Skip('base ' + b)
        seen = cands[0]


def ident(k):
    d = os.path.dirname(k.file)[len('inp'):].strip('/').replace('/', '_')
    mod = os.path.basename(k.file)[:-3]
    n = k.name if mod in (k.name, '_option', '_entry') else mod + '_' + k.name
    return '_'.join(x for x in ('k', d, n) if x)


def lit(s):
    if any(ord(c) > 126 or ord(c) < 32 for c in s):
        raise Skip('characters of ' + repr(s))
    return 'L "%s"' % s.replace('"', '""')


done = {}      # Cls -> ident
lines = []
skipped = []
classes = []   # idents of concrete classes in order
fams = []
meta = {}
exts = {}


def pieces(k):
    """The pattern of k as a Coq expression, splicing other patterns by name."""
    node = k.assigns['_REGEX'].args[0]
    if isinstance(node, ast.Constant):
        return lit(node.value)
    out = []
    for v in node.values:
        if isinstance(v, ast.Constant):
            out.append(lit(v.value))
        else:
            e = v.value
            assert ast.unparse(e.slice) in ('2:-2', '3:-3'), ast.unparse(e)
            n = int(ast.unparse(e.slice)[0])
            ref = ast.unparse(e.value)
            assert ref.endswith('._REGEX.pattern')
            ref = ref[:-len('._REGEX.pattern')]
            out.append('slice %d %d ' % (n, n) + pat_ref(ref, k.file))
    return ' ++ '.join(out)


def pat_ref(ref, fromfile):
    if ref.startswith('types.'):
        n = ref[len('types.'):]
        if n in TYPES:
            return TYPES[n][1]
        raise Skip('pattern of ' + ref)
    c = R.find(ref, fromfile)
    emit(c)
    return 'pat_' + done[c][2:] if c in fams else '(c_pat %s)' % done[c]


def ty(expr, fromfile):
    if expr.startswith('types.'):
        n = expr[len('types.'):]
        if n in TYPES:
            return TYPES[n][0]
        raise Skip('type ' + expr)
    p = pat_ref(expr, fromfile)
    c = R.find(expr, fromfile)
    exts.setdefault(done[c], c)
    return '(TExt "%s" %s)' % (done[c][2:], p)


OPS = {ast.Lt: 'OLt', ast.LtE: 'OLe', ast.Gt: 'OGt', ast.GtE: 'OGe', ast.Eq: 'OEq', ast.NotEq: 'ONe'}


def const(v):
    if isinstance(v, bool):
        raise Skip('bool constant')
    if isinstance(v, int):
        return '(EZ %s)' % (str(v) if v >= 0 else '(%d)' % v)
    if isinstance(v, float):
        a, b = repr(v).split('.')
        return '(ED (Fin false %d (-%d)))' % (int(a + b), len(b))
    if isinstance(v, str):
        return '(ES (%s))' % lit(v)
    raise Skip('constant %r' % (v,))


def nexp(n, x):
    u = ast.unparse(n)
    if isinstance(n, ast.Constant) or isinstance(n, ast.UnaryOp) and isinstance(n.op, ast.USub):
        return const(ast.literal_eval(n))
    if isinstance(n, ast.Name) and n.id == x:
        return 'EX'
    if isinstance(n, ast.Attribute) and isinstance(n.value, ast.Name) and n.value.id == 'self':
        return '(ESelf "%s")' % n.attr
    if isinstance(n, ast.Attribute) and n.attr == 'value':
        return '(EVal %s)' % nexp(n.value, x)
    if isinstance(n, ast.Call) and u == x + '.value.lower()':
        return '(ELower EX)'
    if isinstance(n, ast.Call) and u == 'len(%s)' % x:
        return '(ELen EX)'
    if isinstance(n, ast.Call) and re.fullmatch(r'min\(map\(lambda (\w+): \1, %s\)\)' % x, u):
        return '(EMin EX)'
    if isinstance(n, ast.BinOp) and isinstance(n.op, ast.Mod):
        return '(EMod %s %d)' % (nexp(n.left, x), n.right.value)
    if isinstance(n, ast.BinOp) and isinstance(n.op, ast.Mult):
        return '(EMul %d %s)' % (n.left.value, nexp(n.right, x))
    if isinstance(n, ast.IfExp):
        return '(EIte %s %s %s)' % (bexp(n.test, x), nexp(n.body, x), nexp(n.orelse, x))
    raise Skip('expression ' + u)


def fold(c, xs):
    r = xs[-1]
    for y in reversed(xs[:-1]):
        r = '(%s %s %s)' % (c, y, r)
    return r


def bexp(n, x):
    if isinstance(n, ast.BoolOp):
        return fold('BAnd' if isinstance(n.op, ast.And) else 'BOr', [bexp(v, x) for v in n.values])
    if isinstance(n, ast.UnaryOp) and isinstance(n.op, ast.Not):
        return '(BNot %s)' % bexp(n.operand, x)
    if isinstance(n, ast.IfExp):
        return '(BIte %s %s %s)' % (bexp(n.test, x), bexp(n.body, x), bexp(n.orelse, x))
    if isinstance(n, ast.Constant):
        return '(BConst %s)' % ('true' if n.value else 'false')
    if isinstance(n, ast.Call) and ast.unparse(n) == 'isinstance(%s.value, types.Jump)' % x:
        return '(BJump EX)'
    if isinstance(n, ast.Call) and ast.unparse(n).startswith('isinstance(self.') and ast.unparse(n).endswith('.value, types.Jump)'):
        return '(BJump %s)' % nexp(n.args[0].value, x)
    if isinstance(n, ast.Compare):
        out = []
        left = n.left
        for op, right in zip(n.ops, n.comparators):
            if isinstance(op, (ast.Is, ast.IsNot)):
                assert isinstance(right, ast.Constant) and right.value is None
                b = '(BIsNone %s)' % nexp(left, x)
                out.append(b if isinstance(op, ast.Is) else '(BNot %s)' % b)
            elif isinstance(op, (ast.In, ast.NotIn)):
                assert isinstance(right, ast.Set)
                els = '; '.join(const(ast.literal_eval(e)) for e in right.elts)
                b = '(BIn %s [%s])' % (nexp(left, x), els)
                out.append(b if isinstance(op, ast.In) else '(BNot %s)' % b)
            else:
                out.append('(BCmp %s %s %s)' % (OPS[type(op)], nexp(left, x), nexp(right, x)))
            left = right
        return fold('BAnd', out)
    if isinstance(n, ast.Attribute):
        return '(BTruth %s)' % nexp(n, x)
    raise Skip('test ' + ast.unparse(n))


ONE = '''if X is not None:
    if isinstance(X, T):
        X = X
%s    elif isinstance(X, str):
        X = T.from_mcnp(X)'''
TUP = '''if X is not None:
    array = []
    for item in X:
        if isinstance(item, T):
            array.append(item)
%s        elif isinstance(item, str):
            array.append(T.from_mcnp(item))
    X = types.Tuple(T)(array)'''


def prologue(t, tup):
    v = 'item' if tup else 'X'
    mk = 'array.append(T(item))' if tup else 'X = T(X)'
    ind = ' ' * (8 if tup else 4)
    forms = {'types.Integer': ['isinstance(%s, int)' % v],
             'types.Real': ['isinstance(%s, int) or isinstance(%s, float)' % (v, v), 'isinstance(%s, float) or isinstance(%s, int)' % (v, v)]}
    mids = [ind + 'elif %s:\n' % f + ind + '    ' + mk + '\n' for f in forms.get(t, [])] or ['']
    return [(TUP if tup else ONE) % m for m in mids]


def checks(k, name, t, tup):
    f = k.setters.get(name)
    if f is None:
        raise Skip('no setter for ' + name)
    x = f.args.args[1].arg
    body = [b for b in f.body if not (isinstance(b, ast.Expr) and isinstance(b.value, ast.Constant))]
    pro = re.sub(r'\b%s\b' % re.escape(t), 'T', re.sub(r'\b%s\b' % x, 'X', ast.unparse(body[0])))
    pro = pro.replace(t, 'T')
    if pro not in prologue(t, tup):
        raise Skip('setter of ' + name)
    last = ast.unparse(body[-1])
    if not re.fullmatch(r'self\._%s: .* = %s' % (name, x), last):
        raise Skip('setter of %s stores %s' % (name, last))
    out = []
    for b in body[1:-1]:
        if not isinstance(b, ast.If) or b.orelse:
            raise Skip('setter of ' + name)
        if len(b.body) == 1 and isinstance(b.body[0], ast.Raise):
            assert 'errors.InpError(' in ast.unparse(b.body[0]), ast.unparse(b.body[0])
            out.append(bexp(b.test, x))
        elif k.file == 'inp/surface/P_1.py':
            out.append('(BExt "P_1.%s")' % name)
        else:
            raise Skip('setter of ' + name)
    return out


def init_ok(k, names):
    f = k.methods.get('__init__')
    if f is None:
        return not names
    body = [b for b in f.body if not (isinstance(b, ast.Expr) and isinstance(b.value, ast.Constant)) and not isinstance(b, ast.Pass)]
    got = [(ast.unparse(b.target if isinstance(b, ast.AnnAssign) else b.targets[0]), ast.unparse(b.value)) for b in body if isinstance(b, (ast.AnnAssign, ast.Assign))]
    return len(got) == len(body) and got == [('self.' + n, n) for n in names]


def emit(k):
    if k in done:
        if done[k] is None:
            raise Skip('needs ' + k.name)
        return
    done[k] = None
    if '_REGEX' not in k.assigns:
        subs = R.subclasses(k)
        if not subs:
            raise Skip('family ' + k.name)
        ids = []
        for s in subs:
            emit_safe(s)
            if done[s] is None:
                raise Skip('family %s needs %s' % (k.name, s.name))
            ids.append((s, done[s]))
        i = ident(k)
        order = sorted(ids, reverse=True, key=lambda x: len(x[0].name))
        kd = [s for s, _ in ids if s in fams]
        lines.append('(** /repo/src/pymcnp/%s:%d-%d: the subclasses in definition order, and the pattern\n    that _symbol.py:40-44 makes of theirs, longest class name first. *)' % (k.file, k.line, k.end))
        lines.append('Definition f_%s : list cls := [%s].' % (i[2:], '; '.join(x for _, x in ids)) if not kd else '')
        lines.append('Definition pat_%s : str := union_pat [%s].\n' % (i[2:], '; '.join(('pat_%s' % x[2:]) if s in fams else 'c_pat %s' % x for s, x in order)))
        fams.append(k)
        done[k] = i
        return
    kd = own(k) or kind(k)
    if k.file == 'inp/sdef/tme_1/Embedded.py':
        embedded(k, kd)
        return
    for mth in ('from_mcnp', '__str__'):
        if mth in k.methods:
            raise Skip('own ' + mth)
    an = k.assigns.get('_ATTRS')
    if an is None:
        raise Skip('no _ATTRS')
    attrs = [(a.value, ast.unparse(b)) for a, b in zip(an.keys, an.values)]
    if not init_ok(k, [a for a, _ in attrs]):
        raise Skip('own __init__')
    assert len(k.assigns['_REGEX'].args) > 1 and ast.unparse(k.assigns['_REGEX'].args[1]) == 're.IGNORECASE'
    rows = []
    for a, t in attrs:
        tup = t.startswith('types.Tuple(')
        base = t[len('types.Tuple('):-1] if tup else t
        cs = checks(k, a, base, tup)
        rows.append('{| a_name := "%s"; a_ty := %s %s;\n          a_checks := [%s] |}' % (a, 'Tup' if tup else 'One', ty(base, k.file), '; '.join(cs)))
    kw = k.assigns.get('_KEYWORD')
    kw = kw.value if kw is not None else ''
    i = ident(k)
    p = pieces(k)
    lines.append('(** /repo/src/pymcnp/%s:%d-%d *)' % (k.file, k.line, k.end))
    lines.append('Definition %s : cls :=\n  {| c_name := "%s"; c_kind := %s; c_kw := %s;\n     c_pat := %s;\n     c_attrs := [%s] |}.\n' % (
        i, i[2:], kd, lit(kw), p, ';\n       '.join(rows)))
    done[k] = i
    classes.append(i)
    meta[i] = k


def embedded(k, kd):
    # Its own reader: what it gives is what the generic one gives for an attribute
    # that takes the whole text, since a blank and a [<] are no part of a distribution.
    f = ast.unparse(k.methods['from_mcnp'] if 'from_mcnp' in k.methods else next(b for b in k.node.body if isinstance(b, ast.FunctionDef) and b.name == 'from_mcnp'))
    assert "types.Tuple(types.Distribution).from_mcnp(' '.join(source.split('<')))" in f
    i = ident(k)
    lines.append('''(** /repo/src/pymcnp/%s:%d-%d.  The class has a reader of its own (34-56): it takes the
    sequence from the text with its [<] turned into blanks.  The generic reader, which
    takes it from the text itself, gives the same, as neither is part of a distribution;
    it raises InpError where the class raises TypesError. *)''' % (k.file, k.line, k.end))
    lines.append('Definition %s : cls :=\n  {| c_name := "%s"; c_kind := %s; c_kw := L "";\n     c_pat := %s;\n     c_attrs := [{| a_name := "distributions"; a_ty := Tup TDist; a_checks := [(BIsNone EX)] |}] |}.\n' % (i, i[2:], kd, pieces(k)))
    done[k] = i
    classes.append(i)
    meta[i] = k


def emit_safe(k):
    try:
        emit(k)
    except Skip as e:
        done[k] = None
        skipped.append((k, str(e)))


def main():
    for k in sorted(R.classes.values(), key=lambda k: (k.file, k.line)):
        if not k.file.startswith('inp/') or os.path.basename(k.file) in ('__init__.py', '_card.py', '_symbol.py'):
            continue
        if k.file in ('inp/_option.py', 'inp/_entry.py', 'inp/_block.py'):
            continue
        if '_REGEX' not in k.assigns and not R.subclasses(k):
            skipped.append((k, 'no pattern'))
            continue
        if k not in done:
            emit_safe(k)
    out = open(OUT, 'w')
    out.write('''(** Generated by tools/gen_tables.py from /repo; do not edit.

    One record per INP card, option and entry class whose reader and constructor
    are the generic ones of _card.py, _option.py and _entry.py, and whose writer is
    generic or one of [Cards.own].
    Keyword, pattern, attributes and setter tests are those of the cited lines:
    every setter first converts its argument ([Cards.conv]), then raises InpError
    when one of [a_checks] holds, then stores.

    Not included, with the reason:
''')
    for k, why in skipped:
        out.write('    - %s %s: %s\n' % (k.file, k.name, why))
    out.write('''*)

From Coq Require Import Ascii String NArith ZArith Bool Arith List.
From Verif Require Import PyStr Regex RegexParse PyNum Types Cards.
From Verif Require Lattice.
Import ListNotations.
Open Scope string_scope.
Open Scope list_scope.

''')
    out.write('\n'.join(lines))
    out.write('\n(** Every class above. *)\nDefinition all_classes : list cls :=\n  [%s].\n' % ';\n   '.join(classes))
    out.write('\n(** The classes a nested attribute type stands for: [cls.__subclasses__() or [cls]]. *)\n')
    for f in fams:
        if ident(f) not in exts and not any(x in fams for x in R.subclasses(f)):
            exts[ident(f)] = f
    out.write('Definition families : list (string * list cls) :=\n  [%s].\n' % ';\n   '.join('("%s", %s)' % (i[2:], 'f_' + i[2:] if c in fams else '[%s]' % i) for i, c in exts.items()))
    out.write('Definition fam (n : string) : list cls := match assoc n families with Some l => l | None => [] end.\n')
    out.write('(** Three levels of nesting occur (card, option, entry); four are allowed. *)\nDefinition ext : string -> str -> result val := ext_of fam 4.\n')
    out.close()
    print(len(classes), 'classes', len(fams), 'families', len(skipped), 'skipped')
    return 0


if __name__ == '__main__':
    main()
    for k, why in skipped:
        print(k.file, k.name, why)
