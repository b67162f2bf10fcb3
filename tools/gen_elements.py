"""Writes rocq/theories/Elements.v from the dictionary in _elements.py, literal for literal."""
import ast, os, sys
src = open('/repo/src/pymcnp/_elements.py').read()
lines = src.splitlines()
node = [n for n in ast.parse(src).body if isinstance(n, (ast.Assign, ast.AnnAssign))][0].value
out = ['(** The isotope table, _elements.py, copied literal for literal by tools/gen_elements.py.', '    Masses and fractions are the decimal numbers of the source text, as exact rationals. *)',
       'From Coq Require Import ZArith QArith String List.', 'From Verif Require Import PyStr.', 'Import ListNotations.', 'Open Scope Q_scope.', '',
       "(** One value of the dictionary: ['z'], ['mass'] and ['fraction'] (_elements.py:8). *)",
       'Record element := { e_z : Z; e_mass : list (Z * Q); e_fraction : list (Z * Q) }.', '']
def text(n):
    return ast.get_source_segment(src, n)
def pairs(d):
    assert len({text(k) for k in d.keys}) == len(d.keys)
    return '[' + '; '.join(f'({text(k)}%Z, {text(v)})' for k, v in zip(d.keys, d.values)) + ']'
names = []
for k, v in zip(node.keys, node.values):
    f = {x.value: y for x, y in zip(v.keys, v.values)}
    assert list(f) == ['z', 'mass', 'fraction'], list(f)
    names.append(k.value)
    out.append(f'(** _elements.py:{k.lineno}-{v.end_lineno} *)')
    out.append(f"Definition el_{k.value} : element :=")
    out.append(f"  {{| e_z := {text(f['z'])};")
    out.append(f"     e_mass := {pairs(f['mass'])};")
    out.append(f"     e_fraction := {pairs(f['fraction'])} |}}.")
assert len(set(names)) == len(names)
out.append(f'\n(** _elements.py:{node.lineno}-{node.end_lineno}: the keys in order. *)')
out.append('Definition ELEMENTS : list (str * element) :=\n  [' + ';\n   '.join(f'(L "{n}", el_{n})' for n in names) + '].')
open(os.path.join(os.path.dirname(os.path.abspath(__file__)), '../rocq/theories/Elements.v'), 'w').write('\n'.join(out) + '\n')
