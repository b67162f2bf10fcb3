"""Static reader of /repo: collects, without importing or running any project
code, the class tables (keyword, attributes, pattern, setter checks) of every
`inp` and `types` class.  Patterns are resolved textually, following the same
slicing and joining the f-strings in the sources spell out."""
import ast
import glob
import os

ROOT = '/repo/src/pymcnp'


class Cls:
    pass


def load():
    classes = {}  # (modpath, name) -> Cls
    mods = {}
    files = sorted(glob.glob(ROOT + '/inp/**/*.py', recursive=True)) + sorted(glob.glob(ROOT + '/types/*.py'))
    for f in files:
        rel = os.path.relpath(f, ROOT)
        tree = ast.parse(open(f).read())
        mods[rel] = tree
        for c in tree.body:
            if isinstance(c, ast.ClassDef):
                k = Cls()
                k.file, k.name, k.node = rel, c.name, c
                k.line, k.end = c.lineno, c.end_lineno
                k.bases = [ast.unparse(b) for b in c.bases]
                k.assigns = {}
                for s in c.body:
                    if isinstance(s, ast.Assign) and isinstance(s.targets[0], ast.Name):
                        k.assigns[s.targets[0].id] = s.value
                k.methods = {s.name: s for s in c.body if isinstance(s, ast.FunctionDef) and not s.decorator_list}
                k.setters = {s.name: s for s in c.body if isinstance(s, ast.FunctionDef)
                             and any(ast.unparse(x).endswith('.setter') for x in s.decorator_list)}
                classes[(rel, c.name)] = k
    return mods, classes


def package_order(mods, pkgdir):
    """Order in which a package __init__ imports its own modules."""
    init = mods.get(pkgdir + '/__init__.py')
    order = []
    if init:
        for s in init.body:
            if isinstance(s, ast.ImportFrom) and s.level == 1 and s.module:
                order.append(s.module)
    return order


class Resolver:
    def __init__(self):
        self.mods, self.classes = load()
        self.cache = {}

    def find(self, expr, fromfile):
        """Resolve a dotted class expression seen in `fromfile`."""
        parts = expr.split('.')
        d = os.path.dirname(fromfile)
        if parts[0] == 'types':
            for (f, n), k in self.classes.items():
                if f.startswith('types/') and n == parts[1]:
                    return k
            raise KeyError(expr)
        if len(parts) == 2:
            pkg = d + '/' + parts[0]
            # class in a subpackage (module-level name of the package) or sibling module
            for (f, n), k in self.classes.items():
                if n == parts[1] and (os.path.dirname(f) == pkg or f == pkg + '.py'):
                    return k
            # relative to parent package
            pkg = os.path.dirname(d) + '/' + parts[0]
            for (f, n), k in self.classes.items():
                if n == parts[1] and (os.path.dirname(f) == pkg or f == pkg + '.py'):
                    return k
            raise KeyError((expr, fromfile))
        if len(parts) == 1:
            for (f, n), k in self.classes.items():
                if n == parts[0] and f == fromfile:
                    return k
        raise KeyError((expr, fromfile))

    def subclasses(self, k):
        """Direct subclasses in definition order (import order of the package)."""
        d = os.path.dirname(k.file)
        order = package_order(self.mods, d)
        subs = [c for c in self.classes.values()
                if os.path.dirname(c.file) == d
                and any(b.split('.')[-1] == k.name for b in c.bases) and c is not k]
        def key(c):
            m = os.path.basename(c.file)[:-3]
            return order.index(m) if m in order else 10**6
        return sorted(subs, key=key)

    def pattern(self, k):
        if k in self.cache:
            return self.cache[k]
        if '_REGEX' in k.assigns:
            call = k.assigns['_REGEX']
            p = self.text(call.args[0], k.file)
        else:
            subs = sorted(self.subclasses(k), reverse=True, key=lambda c: len(c.name))
            p = '\\A' + '|'.join(self.pattern(s)[2:-2] for s in subs) + '\\Z'
        self.cache[k] = p
        return p

    def text(self, node, fromfile):
        if isinstance(node, ast.Constant):
            return node.value
        assert isinstance(node, ast.JoinedStr), ast.dump(node)
        out = ''
        for v in node.values:
            if isinstance(v, ast.Constant):
                out += v.value
            else:
                e = v.value
                assert isinstance(e, ast.Subscript), ast.unparse(e)
                a = ast.literal_eval(e.slice.lower)
                b = ast.literal_eval(e.slice.upper)
                ref = ast.unparse(e.value)
                assert ref.endswith('._REGEX.pattern'), ref
                k = self.find(ref[:-len('._REGEX.pattern')], fromfile)
                out += self.pattern(k)[a:b]
        return out

    def flags(self, k):
        if '_REGEX' not in k.assigns:
            return True
        return len(k.assigns['_REGEX'].args) > 1


if __name__ == '__main__':
    r = Resolver()
    n = 0
    for k in r.classes.values():
        if '_REGEX' in k.assigns or (k.file.startswith('inp/') and k.name not in ('Card', 'Option', 'Entry', 'InpNonterminal')):
            try:
                p = r.pattern(k)
                n += 1
            except Exception as e:
                print('FAIL', k.file, k.name, repr(e))
    print(n, max(len(p) for p in r.cache.values()))
