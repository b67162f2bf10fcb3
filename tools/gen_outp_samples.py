"""Writes rocq/theories/OutpSamples.v: the OUTP texts of the project's own tests
(tests/consts.py), for the examples."""
import ast, os
t = ast.parse(open('/repo/tests/consts.py').read())
acc = {}
def walk(c, pre):
    for x in c.body:
        if isinstance(x, ast.ClassDef): walk(x, pre + [x.name])
        elif isinstance(x, ast.Assign):
            try: v = eval(compile(ast.Expression(x.value), '', 'eval'), {})
            except Exception: continue
            if isinstance(v, str): acc['.'.join(pre + [x.targets[0].id])] = (v, x.lineno)
walk(t, [])
out = ['(** OUTP texts of the project\'s own tests, copied from /repo/tests/consts.py by',
       '    tools/gen_outp_samples.py. *)', 'From Coq Require Import Ascii String List.', 'From Verif Require Import PyStr.',
       'Import ListNotations.', 'Open Scope list_scope.', '']
for k, (v, n) in acc.items():
    if not k.startswith('string.outp.'): continue
    name = k.split('.')[-1]
    lines = v.split('\n')
    assert all(ord(c) < 128 for c in v)
    qs = ['L "' + l.replace('"', '""') + '"' for l in lines]
    out.append(f'(** tests/consts.py:{n} *)')
    out.append(f'Definition sample_{name} : str :=\n  join [nl] [' + ';\n    '.join(qs) + '].')
open(os.path.join(os.path.dirname(os.path.abspath(__file__)), '../rocq/theories/OutpSamples.v'), 'w').write('\n'.join(out) + '\n')
print([ (k,len(v[0])) for k,v in acc.items() if k.startswith('string.outp.')])
