"""Appends mutation results (JSON lines of file, old, new, claim, failed) to
seeded/LOG.jsonl.  Without arguments, works out theorems_failed of every row again.

A build stops in each file at the first statement that fails (first_broken_lemma).
theorems_failed holds, of the theorems MANIFEST.json names for the claim, those that
are this statement or whose proof uses it, by name, directly or through other
statements.  They cannot be proved as they are in the wrong program.  Statements
later in the same file were not tried, so the list can be too short.  If no theorem
of the claim is found, the failing statement itself is listed."""
import glob, json, os, re, sys
here = os.path.dirname(os.path.abspath(__file__))
man = {c['property']: c['theorems'] for c in json.load(open(here + '/../MANIFEST.json'))['claims']}
HEAD = re.compile(r'^\s*(?:Local |Global |Polymorphic )?(?:Theorem|Lemma|Example|Corollary|Fact|Remark|Definition|Fixpoint|Ltac|Inductive|Record)\s+(\w+)', re.M)

def uses():
    """For each name the names its statement and proof mention."""
    found = {}
    for path in sorted(glob.glob(here + '/../rocq/theories/*.v')):
        src = open(path).read()
        heads = list(HEAD.finditer(src))
        for h, end in zip(heads, [x.start() for x in heads[1:]] + [len(src)]):
            found.setdefault(h.group(1), set()).update(re.findall(r"[A-Za-z_][\w']*", src[h.end():end]))
    for n in found:
        found[n] = {m for m in found[n] if m in found and m != n}
    return found
USES = uses()
def reaches(start, goals, seen=None):
    stack, seen = [start], set()
    while stack:
        n = stack.pop()
        if n in goals: return True
        if n not in seen:
            seen.add(n); stack.extend(USES.get(n, ()))
    return False
def failed_theorems(claim, failed):
    goals = {f.split()[-1] for f in failed if re.search(r'(Theorem|Lemma|Example|Corollary|Ltac) ', f)}
    thms = [t for i in re.findall(r'C\d\d', claim) for t in man.get(i, []) if goals and reaches(t, goals)]
    return thms or [f.split()[-1] for f in failed if f.split()[-1] in goals]

log = here + '/../seeded/LOG.jsonl'
if len(sys.argv) == 1:
    rows = [json.loads(l) for l in open(log)]
    for d in rows: d['theorems_failed'] = failed_theorems(d['claim_broken'], d['first_broken_lemma'])
    open(log, 'w').write(''.join(json.dumps(d) + '\n' for d in rows))
else:
    tight = json.loads(sys.argv[2]) if len(sys.argv) > 2 else {}
    with open(log, 'a') as out:
        for l in open(sys.argv[1]):
            d = json.loads(l)
            src = open(here + '/../rocq/theories/' + d['file']).read()
            pos = src.find(d['old'])
            defs = re.findall(r'(?:Definition|Fixpoint|Inductive|Record)\s+(\w+)', src[:pos + len(d['old'])])
            out.write(json.dumps({'definition': d['file'] + ':' + (defs[-1] if defs else '?'), 'edit': d['old'] + '  ==>  ' + d['new'],
                'claim_broken': d['claim'], 'theorems_failed': failed_theorems(d['claim'], d['failed']), 'first_broken_lemma': d['failed'],
                'theorems_tightened': tight.get(d['new'], [])}) + '\n')
