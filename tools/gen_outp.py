"""Writes rocq/theories/OutpTables.v: the patterns, groups and templates of the OUTP
tables, copied from outp/*.py."""
import ast, os, re
ROOT = '/repo/src/pymcnp/outp/'
FLAT = ['Header', 'Mcnp', 'NeutronActivity', 'PhotonActivity', 'AnalysisTallyFluctuation', 'ProblemSummary', 'StartingMcrun', 'UnnormedTallyDensity']
def q(s):
    return 'L "' + s.replace('"', '""') + '"'
out = ['(** The OUTP tables, copied from /repo/src/pymcnp/outp by',
       '    tools/gen_outp.py: for each class its pattern, the group each field is read',
       '    from and the text [to_mcnp] writes. *)', 'From Coq Require Import Ascii String List.',
       'From Verif Require Import PyStr.', 'Import ListNotations.', 'Open Scope list_scope.', '',
       '(** A piece of the f-string in [to_mcnp]: text, a line end, or a field with the',
       '    width its format gives, 0 if none. *)',
       'Inductive piece := T (s : str) | NL | F (field width : nat).',
       '(** [t_groups] has, for each field in the order of the constructor, its group;',
       '    [t_cut] is how many characters the slice takes off the end. *)',
       'Record table := { t_name : string; t_pat : str; t_groups : list nat; t_out : list piece; t_cut : nat }.', '']
def load(path):
    src = open(ROOT + path + '.py').read()
    cls = [c for c in ast.parse(src).body if isinstance(c, ast.ClassDef)][0]
    fn = {f.name: f for f in cls.body if isinstance(f, ast.FunctionDef)}
    rx = [a for a in cls.body if isinstance(a, ast.Assign) and a.targets[0].id == '_REGEX'][0]
    assert ast.unparse(rx.value.func) == 're.compile'
    ic = [ast.unparse(a) for a in rx.value.args[1:]] == ['re.IGNORECASE']
    assert ic or len(rx.value.args) == 1
    return cls, fn, rx, ic
def pattern(rx):
    a = rx.value.args[0]
    if isinstance(a, ast.Constant): return a.value
    r = ''
    for v in a.values:
        if isinstance(v, ast.Constant): r += v.value
        else:
            t = ast.unparse(v.value)
            assert t.startswith('tally.Subtally_') and t.endswith('._REGEX.pattern[2:-2]'), t
            r += pattern(load('tally/' + t[6:16])[2])[2:-2]
    return r
def emit(path, ignorecase):
    """One table.  A field that is not a string, but text the model makes from other
    parts, is numbered after the strings: the message first, then the parts."""
    name = path.split('/')[-1]
    cls, fn, rx, ic = load(path)
    assert ic == ignorecase, path
    pat = pattern(rx)
    params = [a.arg for a in fn['__init__'].args.args][1:]
    for s in fn['__init__'].body:   # self.x = x
        if isinstance(s, ast.AnnAssign):
            assert s.target.attr == s.value.id and s.target.attr in params
    got, parts, offset, message = {}, None, 0, None
    for s in fn['from_mcnp'].body:
        if not isinstance(s, ast.Assign): continue
        t, v = s.targets[0].id, s.value
        if t == 'offset':
            o = ast.unparse(v)
            assert o.startswith('tally.Subtally_') and o[16:] == '._REGEX.groups'
            offset = re.compile(pattern(load('tally/' + o[6:16])[2])).groups
            continue
        if isinstance(v, ast.IfExp):
            assert t == 'message' and ast.unparse(v) == 'types.String.from_mcnp(tokens[5]) if tokens[5] else None'
            message = 5
            continue
        if not isinstance(v, ast.Call): continue
        f = ast.unparse(v.func)
        if f == f'{name}._REGEX.match': continue
        a = v.args[0]
        assert ast.unparse(a.value) == 'tokens'
        n = eval(compile(ast.Expression(a.slice), '', 'eval'), {'offset': offset})
        if f == 'types.String.from_mcnp': got[t] = n
        else:
            assert parts is None
            parts = (t, ast.unparse(v.func.value.args[0]), n, ast.unparse(v.func.value.func))
    ret = fn['from_mcnp'].body[-1].value
    order = [a.id for a in ret.args]
    assert len(order) == len(params)
    strings = [p for p, a in zip(params, order) if a in got]
    groups = [got[a] for a in order if a in got]      # positional
    extra = [params[order.index('message')]] if message else []
    if parts: extra.append(params[order.index(parts[0])])
    assert len(strings) + len(extra) == len(params)
    index = {n: i for i, n in enumerate(strings + extra)}
    body = fn['to_mcnp'].body
    r = body[-1].value
    if isinstance(r, ast.Subscript):
        assert isinstance(r.slice, ast.Slice) and r.slice.lower.value == 1
        cut = 0 if r.slice.upper is None else -ast.literal_eval(r.slice.upper)
        r = r.value
        lead = []
    else:
        cut, lead = 0, ['NL']     # no slice: as if a line end stood in front of it
    if message:
        assert ast.unparse(body[-2]) == "message = '\\n           ' + str(self.message) + '\\n' if self.message else ''", ast.unparse(body[-2])
    pieces = list(lead)
    for v in r.values:
        if isinstance(v, ast.Constant):
            ps = v.value.split('\n')
            for i, p in enumerate(ps):
                if i: pieces.append('NL')
                if p: pieces.append(f'T ({q(p)})')
            continue
        e = v.value
        t = ast.unparse(e)
        if t == 'message': e = index['message']
        elif parts and t == f"''.join(map(str, self.{parts[0]}))": e = index[parts[0]]
        else:
            if isinstance(e, ast.Attribute) and e.attr == 'value': e = e.value
            assert isinstance(e, ast.Attribute) and e.value.id == 'self' and e.attr in strings
            e = index[e.attr]
        w = v.format_spec.values[0].value if v.format_spec else '0'
        pieces.append(f'F {e} {int(w)}')
    out.append(f"(** outp/{path}.py:{rx.lineno}-{rx.end_lineno} (pattern), {fn['from_mcnp'].lineno}-{fn['from_mcnp'].end_lineno} (groups), {fn['to_mcnp'].lineno}-{fn['to_mcnp'].end_lineno} (text). *)")
    # pattern split in chunks at \n for legibility
    chunks, cur = [], ''
    i = 0
    while i < len(pat):
        if pat[i] == '\\':
            cur += pat[i:i+2]; i += 2
            if cur.endswith('\\n') and len(cur) > 60: chunks.append(cur); cur = ''
        else:
            cur += pat[i]; i += 1
    if cur: chunks.append(cur)
    out.append(f'Definition t_{name} : table :=')
    out.append(f'  {{| t_name := "{name}"%string;')
    out.append('     t_pat := ' + ' ++\n       '.join(q(c) for c in chunks) + ';')
    out.append('     t_groups := [' + '; '.join(map(str, groups)) + '];')
    out.append('     t_out := [' + '; '.join(pieces).replace('NL; T', 'NL;\n       T') + '];')
    out.append(f'     t_cut := {cut} |}}.')
    return parts, message
for name in FLAT: emit(name, False)
emit('tally/subtally/Line', True)
out += ['', '(** A block with parts of its own: the strings, the group its parts are read from',
        '    and, for a tally, the class of the parts and the group of the message. *)',
        'Record sub_class := { s_table : table; s_group : nat }.',
        'Record tally_class := { y_table : table; y_group : nat; y_sub : sub_class; y_message : option nat }.', '']
for n in ['1', '2', '4']:
    parts, m = emit('tally/Subtally_' + n, True)
    assert m is None and parts[1] == 'subtally.Line' and parts[3] == 'types.Generator'
    out.append(f'Definition s_Subtally_{n} : sub_class := {{| s_table := t_Subtally_{n}; s_group := {parts[2]} |}}.')
for n in ['1A', '1B', '2', '4', '8A', '8B']:
    parts, m = emit('Tally_' + n, False)
    assert parts[1].startswith('tally.Subtally_') and parts[3] == 'types.Tuple'
    out.append(f'Definition y_Tally_{n} : tally_class := {{| y_table := t_Tally_{n}; y_group := {parts[2]}; y_sub := s_{parts[1][6:]}; y_message := {"Some %d" % m if m else "None"} |}}.')
open(os.path.join(os.path.dirname(os.path.abspath(__file__)), '../rocq/theories/OutpTables.v'), 'w').write('\n'.join(out) + '\n')
