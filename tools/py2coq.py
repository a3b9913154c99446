"""Translate OpenMDAO components of /repo (read as text) into Gallina definitions.

usage: python3 tools/py2coq.py tools/comps/<area>.py      writes rocq/theories/<Area>Model.v

A component becomes three definitions: <name>_compute and <name>_partials, statement by statement with a
let for each assignment and the source line beside it, and <name>, the record that also holds the inputs,
outputs and declared partials found in setup and setup_partials.  Numbers are real numbers and decimal
literals are exact.  Python if statements on options stay if expressions.  A branch that raises, or that
leaves an output or partial alone, takes the value 0 (a warning is printed), so theorems say nothing about runs that raise.  Anything the translator does
not understand stops the translation of that component with a message.  A module level number that is computed
by a call to another library (spec 'params') is an option, so theorems hold for every value of it.  For a
component with node arrays the value at one node is translated: x[mask] = v becomes an if, and every partial
that can be nonzero must be declared with rows = cols = arange(nn), or be dense for a scalar input, which is what
lift of Vec.v models; anything else is reported.  Where a specification has 'rewrite', the listed changes are made in the
source text before it is translated (they keep the number of lines); a specification with 'args' gives the definitions those
arguments, which is how interpolated tables become functions of which nothing is assumed.
"""
import ast, os, re, sys
from fractions import Fraction

REPO = '/repo/aviary/'
ROOT = os.path.dirname(os.path.dirname(os.path.abspath(__file__)))
RESERVED = {'in', 'at', 'end', 'fun', 'let', 'if', 'then', 'else', 'match', 'with', 'forall', 'exists', 'as', 'return', 'where',
            'exp', 'ln', 'out', 'jac', 'pw', 'pos', 'R', 'S', 'O', 'Z', 'sin', 'cos', 'tan', 'upd', 'env', 'op', 'e', 'on', 'ob', 'oe', 'e_',
            'J', 'mod', 'sqrt', 'ltb', 'leb', 'eqb', 'fst', 'snd', 'sum', 'I', 'le', 'lt', 'eq', 'N', 'C', 'PI', 'nil', 'cons', 'length', 'D',
            'fix', 'Set', 'Type', 'Prop', 'using', 'var', 'span_', 'comp', 'options', 'atan'}


class Unsupported(Exception):
    pass


def read_vars():
    tree = ast.parse(open(REPO + 'variable_info/variables.py').read())
    out = {}

    def walk(node, path):
        for s in node.body:
            if isinstance(s, ast.ClassDef):
                walk(s, path + [s.name])
            elif isinstance(s, ast.Assign) and isinstance(s.value, ast.Constant):
                out['.'.join(path + [s.targets[0].id])] = s.value.value
    walk(tree, [])
    return out


def read_meta():
    tree = ast.parse(open(REPO + 'variable_info/variable_meta_data.py').read())
    out = {}
    for s in tree.body:
        if isinstance(s, ast.Expr) and isinstance(s.value, ast.Call) and getattr(s.value.func, 'id', '') == 'add_meta_data':
            name = ast.unparse(s.value.args[0])
            kw = {k.arg: k.value for k in s.value.keywords}
            out[name] = ast.unparse(kw['types']) if 'types' in kw else 'float'
    return out


VARS = read_vars()
META = read_meta()
VARS_OF = {}
for _k, _v in VARS.items():
    VARS_OF.setdefault(_v, _k)
CONST = {'GRAV_ENGLISH_LBM': '1.0', 'PSLS_PSF': '2116.22', 'TSLS_DEGR': '518.67'}
ENUMS = {'AircraftTypes', 'AtmosphereModel', 'EquationsOfMotion', 'FlapType', 'GASPEngineType', 'LegacyCode', 'ProblemType',
         'Verbosity', 'SpeedType', 'AlphaModes', 'ThrottleAllocation', 'FlapType', 'AnalysisScheme'}


def lit(v):
    f = Fraction(repr(v)) if isinstance(v, float) else Fraction(v)
    if f.denominator == 1:
        return (str(f.numerator), 0) if f >= 0 else ('- %d' % -f.numerator, 35)
    d = 1
    while (f * d).denominator != 1:
        d *= 10
    n = int(f * d)
    return ('%d / %d' % (n, d), 40) if f >= 0 else ('- %d / %d' % (-n, d), 40)


def par(x, level):
    s, p = x
    return s if p <= level else '(' + s + ')'


class Tr:
    def __init__(self, src, cls, spec, functions):
        self.src, self.cls, self.spec = src, cls, spec
        for m in cls.body:                    # options = self.options
            if isinstance(m, ast.FunctionDef) and any(isinstance(x, ast.Assign) and ast.unparse(x) == 'options = self.options' for x in m.body):
                class Opt(ast.NodeTransformer):
                    def visit_Name(self, n):
                        return ast.copy_location(ast.parse('self.options', mode='eval').body, n) if n.id == 'options' and isinstance(n.ctx, ast.Load) else n
                m.body = [ast.fix_missing_locations(Opt().visit(x)) for x in m.body]
        self.functions = functions            # python name -> coq name
        self.modfuns = {}                     # module level functions of the file, inlined where they are called
        self.used_vars = {}                   # coq ident -> string
        self.alias = {}                       # local python name -> variable path or constant node
        self.consts = {}                      # class level / module level constants
        self.warn = []
        self.dropped = set()
        self.opt_types = {}                   # types of the options the class declares itself
        for m in cls.body:
            if isinstance(m, ast.FunctionDef) and m.name == 'initialize':
                for c in ast.walk(m):
                    if isinstance(c, ast.Call) and ast.unparse(c.func) == 'self.options.declare':
                        for k in c.keywords:
                            if k.arg == 'types' and isinstance(c.args[0], ast.Constant):
                                self.opt_types[c.args[0].value] = ast.unparse(k.value)

    # ---- names
    def coqname(self, n):
        n = n.strip('_') or n
        return n + '_' if n in RESERVED or n in self.idents else n

    @property
    def idents(self):
        return self._idents if hasattr(self, '_idents') else set()

    def varname(self, node):
        """The Coq identifier of a variable name expression."""
        t = ast.unparse(node)
        if isinstance(node, ast.Name) and node.id in self.alias:
            return self.varname(self.alias[node.id])
        if t in VARS:
            c = t.replace('.', '_')
            self.used_vars[c] = VARS[t]
            return c
        if isinstance(node, ast.Constant) and isinstance(node.value, str):
            if node.value in VARS_OF:
                c = VARS_OF[node.value].replace('.', '_')
                self.used_vars[c] = node.value
                return c
            c = 'v_' + re.sub(r'\W', '_', node.value)
            self.used_vars[c] = node.value
            return c
        if isinstance(node, ast.JoinedStr):
            raise Unsupported('f-string name ' + t)
        raise Unsupported('variable name ' + t)

    def option(self, node):
        """(kind, coq term) of self.options[node]."""
        t = ast.unparse(node)
        fixed = self.spec.get('fix', {})
        key = t.strip("'\"")
        if key in fixed:
            return ('const', fixed[key])
        ty = META.get(t) or self.spec.get('types', {}).get(key) or self.opt_types.get(key, 'float')
        name = self.varname(node)
        if ty == 'bool':
            return ('bool', 'ob op %s' % name)
        if ty in ENUMS or ty.startswith('enum'):
            return ('enum', 'oe op %s' % name)
        return ('num', 'on op %s' % name)

    # ---- expressions; a value is (string, precedence); booleans are marked by kind
    def is_option(self, n):
        return isinstance(n, ast.Subscript) and ast.unparse(n.value) == 'self.options'

    def expr(self, n):
        if isinstance(n, ast.Constant):
            if isinstance(n.value, bool):
                return ('true' if n.value else 'false', 0)
            if isinstance(n.value, (int, float)):
                return lit(n.value)
            if isinstance(n.value, str):
                return ('"%s"' % n.value, 0)
            raise Unsupported('constant %r' % n.value)
        if isinstance(n, ast.Name):
            if n.id in self.scope:
                return (self.scope[n.id], 0)
            if n.id in self.consts:
                return self.expr(self.consts[n.id])
            if n.id in self.spec.get('params', ()):
                self.used_vars['v_' + n.id] = n.id
                return ('on op v_' + n.id, 10)
            if n.id in CONST:
                return (n.id, 0)
            raise Unsupported('name %s (line %d)' % (n.id, n.lineno))
        if isinstance(n, ast.Attribute):
            t = ast.unparse(n)
            if t in ('np.pi', 'math.pi'):
                return ('PI', 0)
            if t == '_units.degree':              # scipy.constants.degree
                return ('PI / 180', 40)
            if n.attr == 'real':
                return self.expr(n.value)
            if t.startswith('self.') and n.attr in self.consts:
                return self.expr(self.consts[n.attr])
            if t in self.scope:
                return (self.scope[t], 0)
            if t.split('.')[0] in ENUMS:
                return ('"%s"' % n.attr, 0)
            raise Unsupported('attribute ' + t)
        if isinstance(n, ast.UnaryOp):
            if isinstance(n.op, ast.USub):
                if isinstance(n.operand, ast.Constant):
                    return lit(-n.operand.value)
                return ('- ' + par(self.expr(n.operand), 35), 35)
            if isinstance(n.op, ast.UAdd):
                return self.expr(n.operand)
            if isinstance(n.op, ast.Not):
                return ('negb ' + par(self.expr(n.operand), 9), 10)
        if isinstance(n, ast.BinOp):
            a = n.left
            if isinstance(n.op, ast.Pow):
                return self.power(a, n.right)
            x, y = self.number(n.left), self.number(n.right)
            if isinstance(n.op, ast.Add):
                return (par(x, 50) + ' + ' + par(y, 49), 50)
            if isinstance(n.op, ast.Sub):
                return (par(x, 50) + ' - ' + par(y, 49), 50)
            if isinstance(n.op, ast.Mult):
                return (par(x, 40) + ' * ' + par(y, 39), 40)
            if isinstance(n.op, ast.Div):
                return (par(x, 40) + ' / ' + par(y, 39), 40)
            if isinstance(n.op, ast.FloorDiv):
                return ('floorR (' + par(x, 40) + ' / ' + par(y, 39) + ')', 10)
            if isinstance(n.op, ast.Mod):
                return ('modR %s %s' % (par(x, 9), par(y, 9)), 10)
            raise Unsupported('operator ' + ast.unparse(n))
        if isinstance(n, ast.Compare):
            if len(n.ops) != 1:
                parts = []
                left = n.left
                for op, r in zip(n.ops, n.comparators):
                    parts.append(self.expr(ast.Compare(left, [op], [r])))
                    left = r
                return ('(' + ' && '.join(par(p, 10) for p in parts) + ')%bool', 0)
            l, r = n.left, n.comparators[0]
            if isinstance(n.ops[0], (ast.Is, ast.IsNot, ast.Eq)) and (not isinstance(n.ops[0], ast.Eq) or self.kind(l) == 'bool'):
                if ast.unparse(r) in ('True', 'False'):
                    pos = (ast.unparse(r) == 'True') != isinstance(n.ops[0], ast.IsNot)
                    return self.expr(l) if pos else ('negb ' + par(self.expr(l), 9), 10)
            x, y = self.expr(l), self.expr(r)
            sx, sy = par(x, 9), par(y, 9)
            if self.kind(l) == 'enum' or self.kind(r) == 'enum' or sx.startswith('"') or sy.startswith('"'):
                f = 'enum_is'
                if isinstance(n.ops[0], ast.Eq) or isinstance(n.ops[0], ast.Is):
                    return ('%s %s %s' % (f, sx, sy), 10)
                if isinstance(n.ops[0], ast.NotEq):
                    return ('negb (%s %s %s)' % (f, sx, sy), 10)
            if sx in ('true', 'false') or sy in ('true', 'false'):
                raise Unsupported('comparison with a truth value')
            o = n.ops[0]
            if isinstance(o, ast.Lt):
                return ('ltb %s %s' % (sx, sy), 10)
            if isinstance(o, ast.Gt):
                return ('ltb %s %s' % (sy, sx), 10)
            if isinstance(o, ast.LtE):
                return ('leb %s %s' % (sx, sy), 10)
            if isinstance(o, ast.GtE):
                return ('leb %s %s' % (sy, sx), 10)
            if isinstance(o, ast.Eq):
                return ('eqb %s %s' % (sx, sy), 10)
            if isinstance(o, ast.NotEq):
                return ('negb (eqb %s %s)' % (sx, sy), 10)
        if isinstance(n, ast.BoolOp):
            op = ' && ' if isinstance(n.op, ast.And) else ' || '
            return ('(' + op.join(par(self.expr(v), 10) for v in n.values) + ')%bool', 0)
        if isinstance(n, ast.Subscript):
            t = ast.unparse(n.value)
            if t == 'self.options':
                k, v = self.option(n.slice)
                if k == 'const':
                    return self.const(v)
                return (v, 10)
            if t == 'inputs':
                return ('e ' + self.varname(n.slice), 10)
            if t == 'outputs':
                key = 'out ' + self.varname(n.slice)
                if key in self.scope:
                    return (self.scope[key], 0)
                raise Unsupported('output read before assignment')
            if t in ('J', 'partials', 'jacobian') and isinstance(n.slice, ast.Tuple):
                key = 'J %s %s' % (self.varname(n.slice.elts[0]), self.varname(n.slice.elts[1]))
                if key in self.scope:
                    return (self.scope[key], 0)
            if isinstance(n.slice, ast.Constant) and n.slice.value == 0:
                return self.expr(n.value)
            if isinstance(n.slice, ast.Slice) and ast.unparse(n.slice) == ':':
                return self.expr(n.value)
            raise Unsupported('subscript ' + ast.unparse(n))
        if isinstance(n, ast.IfExp):
            c = self.test(n.test)
            if c in (True, False):
                return self.expr(n.body if c else n.orelse)
            return ('if %s then %s else %s' % (c, par(self.expr(n.body), 50), par(self.expr(n.orelse), 50)), 200)
        if isinstance(n, ast.Call):
            return self.call(n)
        if isinstance(n, ast.Tuple) and len(n.elts) == 1:          # a one-element array
            return self.expr(n.elts[0])
        raise Unsupported(ast.dump(n)[:80])

    def number(self, n):
        v = self.expr(n)
        if self.kind(n) == 'bool':            # True counts as 1
            return ('if %s then 1 else 0' % v[0], 200)
        return v

    def const(self, v):
        if isinstance(v, bool):
            return ('true' if v else 'false', 0)
        if isinstance(v, str):
            return ('"%s"' % v, 0)
        if not isinstance(v, (int, float)):
            raise Unsupported('constant %r' % (v,))
        return lit(v)

    def kind(self, n):
        if isinstance(n, ast.Call) and ast.unparse(n.func) in ('np.where', 'np.logical_and', 'np.logical_or') and (len(n.args) == 1 or 'logical' in ast.unparse(n.func)):
            return 'mask'
        if isinstance(n, ast.Compare):
            return 'mask'
        if isinstance(n, ast.UnaryOp) and isinstance(n.op, ast.Not):
            return 'bool'
        if self.is_option(n):
            return self.option(n.slice)[0]
        if isinstance(n, ast.Name) and n.id in self.kinds:
            return self.kinds[n.id]
        if isinstance(n, ast.Attribute) and ast.unparse(n).split('.')[0] in ENUMS:
            return 'enum'
        return 'num'

    def value(self, n):
        """Compile-time number, if it is one."""
        try:
            if isinstance(n, ast.Constant) and isinstance(n.value, (int, float)):
                return Fraction(repr(n.value))
            if isinstance(n, ast.UnaryOp) and isinstance(n.op, ast.USub):
                v = self.value(n.operand)
                return None if v is None else -v
            if isinstance(n, ast.BinOp):
                a, b = self.value(n.left), self.value(n.right)
                if a is None or b is None:
                    return None
                if isinstance(n.op, ast.Add): return a + b
                if isinstance(n.op, ast.Sub): return a - b
                if isinstance(n.op, ast.Mult): return a * b
                if isinstance(n.op, ast.Div): return a / b
        except Exception:
            pass
        return None

    def power(self, a, b):
        base = par(self.expr(a), 29)
        v = self.value(b)
        if v is not None and v.denominator == 1:
            if v >= 0:
                return ('%s ^ %d' % (base, v), 30)
            return ('/ %s ^ %d' % (base, -v) if v != -1 else '/ ' + par(self.expr(a), 35), 35)
        return ('%s ** %s' % (base, par(self.expr(b), 0)), 30)

    def call(self, n):
        f = ast.unparse(n.func)
        simple = {'np.sqrt': 'sqrt', 'np.cos': 'cos', 'np.sin': 'sin', 'np.tan': 'tan', 'np.exp': 'exp', 'np.log': 'ln',
                  'np.abs': 'Rabs', 'abs': 'Rabs', 'np.arctan': 'atan', 'math.atan': 'atan', 'math.sqrt': 'sqrt', 'math.cos': 'cos',
                  'math.sin': 'sin', 'math.exp': 'exp', 'math.log': 'ln', 'cmath.sqrt': 'sqrt', 'np.tanh': 'tanh', 'np.arcsin': 'asin', 'np.arccos': 'acos', 'np.sinh': 'sinh', 'np.cosh': 'cosh',
                  'np.log10': 'log10', 'math.log10': 'log10', 'np.rad2deg': 'deg_of', 'np.degrees': 'deg_of'}
        if f in simple and len(n.args) == 1:
            return ('%s %s' % (simple[f], par(self.expr(n.args[0]), 9)), 10)
        if f in ('float', 'np.float64', 'np.sum', 'sum', 'np.array', 'np.real', 'max') and len(n.args) == 1 and (f in ('float', 'np.real') or self.spec.get('one')):
            return self.expr(n.args[0])
        if f == 'np.dot' and self.spec.get('one'):
            return (par(self.expr(n.args[0]), 40) + ' * ' + par(self.expr(n.args[1]), 39), 40)
        if f == 'np.einsum':                  # no summation: the product at one position
            ins_, out_ = n.args[0].value.split('->')
            if set(ins_.replace(',', '')) != set(out_):
                raise Unsupported('einsum ' + n.args[0].value)
            xs = [self.expr(a) for a in n.args[1:]]
            return (' * '.join([par(xs[0], 40)] + [par(x, 39) for x in xs[1:]]), 40)
        if f.endswith('.ravel') and not n.args:
            return self.expr(n.func.value)
        if f in ('np.radians', 'np.deg2rad'):
            return (par(self.expr(n.args[0]), 40) + ' * PI / 180', 40)
        if f.startswith('self.') and self.method([f[5:]]):
            m = self.method([f[5:]])
            ps = [a.arg for a in m.args.args if a.arg != 'self']
            saved = (self.scope, self.kinds, self.known, self.alias)
            fn, self.fn = self.fn, m
            vals = [(p, None if ast.unparse(a) in ('inputs', 'discrete_inputs') else self.expr(a)[0]) for p, a in zip(ps, n.args)]
            self.scope, self.kinds, self.known, self.alias = {}, {}, {}, dict(getattr(self, 'base_alias', {}))
            pre = ''
            for p, v in vals:
                if v is not None:
                    pre += 'let %s := %s in ' % (self.coqname(p), v)
                    self.scope[p] = self.coqname(p)
            body = self.block(m.body, '      ')
            self.fn = fn
            self.scope, self.kinds, self.known, self.alias = saved
            if not body[-1].strip().startswith('let'):
                return (pre + ('\n' if len(body) > 1 else '') + '\n'.join(x if i else x.strip() if len(body) == 1 else x for i, x in enumerate(body)), 200)
            raise Unsupported('method ' + f)
        if f in self.modfuns and f not in self.functions:
            m = self.modfuns[f]
            ps = [a.arg for a in m.args.args]
            dflt = dict(zip(ps[len(ps) - len(m.args.defaults):], m.args.defaults))
            args = dict(zip(ps, n.args))
            args.update({k.arg: k.value for k in n.keywords})
            saved = (self.scope, self.kinds, self.known, self.alias)
            vals = []
            fn, self.fn = self.fn, m
            for p in ps:
                a = args.get(p, dflt.get(p))
                fx = self.fixed(a)
                vals.append((p, fx, None if fx is not None and (fx[0] is None or isinstance(fx[0], (bool, str))) else self.expr(a)[0], self.kind(a)))
            self.scope, self.kinds, self.known, self.alias = {}, {}, {}, dict(getattr(self, 'base_alias', {}))
            pre = ''
            for p, fx, v, k in vals:
                if fx is not None:
                    self.known[p] = fx[0]
                if v is not None:
                    c = self.coqname(p)
                    if v != c:
                        pre += 'let %s := %s in ' % (c, v)
                    self.scope[p] = c
                    self.kinds[p] = k
            body = self.block(m.body, '      ')
            self.fn = fn
            self.scope, self.kinds, self.known, self.alias = saved
            if not body[-1].strip().startswith('let'):
                return ('(* %s, L%d-%d *) ' % (f, m.lineno, m.end_lineno) + pre + ('\n' if len(body) > 1 else '') + '\n'.join(x if i else x.strip() if len(body) == 1 else x for i, x in enumerate(body)), 200)
            raise Unsupported('function ' + f)
        if f == 'int' and len(n.args) == 1:
            return ('floorR %s' % par(self.expr(n.args[0]), 9), 10)
        if f == 'np.where' and len(n.args) == 3:
            return ('if %s then %s else %s' % (self.test(n.args[0]), par(self.expr(n.args[1]), 50), par(self.expr(n.args[2]), 50)), 200)
        if f == 'np.where' and len(n.args) == 1:
            return self.expr(n.args[0])
        if f in ('np.logical_and', 'np.logical_or'):
            op = ' && ' if f == 'np.logical_and' else ' || '
            return ('(' + op.join(par(self.expr(v), 10) for v in n.args) + ')%bool', 0)
        if f == 'np.square':
            return (par(self.expr(n.args[0]), 29) + ' ^ 2', 30)
        if f == 'np.power':
            return self.power(n.args[0], n.args[1])
        if f == 'np.full' and len(n.args) == 2:
            return self.expr(n.args[1])
        if f in ('np.atleast_1d', 'np.asarray'):
            return self.expr(n.args[0])
        if f in ('np.ones', 'np.ones_like'):
            return ('1', 0)
        if f in ('np.zeros', 'np.zeros_like'):
            return ('0', 0)
        if f in ('max', 'np.maximum') and len(n.args) == 2:
            return ('Rmax %s %s' % (par(self.expr(n.args[0]), 9), par(self.expr(n.args[1]), 9)), 10)
        if f in ('min', 'np.minimum') and len(n.args) == 2:
            return ('Rmin %s %s' % (par(self.expr(n.args[0]), 9), par(self.expr(n.args[1]), 9)), 10)
        if f in self.functions:
            pars = self.functions[f]
            name = pars[0] if isinstance(pars, (tuple, list)) else pars
            args = [par(self.expr(a), 9) for a in n.args]
            if n.keywords:
                order = pars[1]
                d = {k.arg: par(self.expr(k.value), 9) for k in n.keywords}
                args += [d[p] for p in order[len(args):]]
            return ('%s %s' % (name, ' '.join(args)), 10)
        raise Unsupported('call ' + ast.unparse(n)[:80])

    def test(self, n):
        """A condition: True, False or a Coq boolean."""
        if isinstance(n, ast.BoolOp):
            vs = [self.test(v) for v in n.values]
            if isinstance(n.op, ast.And):
                if False in [v for v in vs if v is False or v is True]:
                    if any(v is False for v in vs): return False
                vs = [v for v in vs if v is not True]
                if not vs: return True
                return vs[0] if len(vs) == 1 else '(' + ' && '.join('(%s)' % v for v in vs) + ')%bool'
            if any(v is True for v in vs): return True
            vs = [v for v in vs if v is not False]
            if not vs: return False
            return vs[0] if len(vs) == 1 else '(' + ' || '.join('(%s)' % v for v in vs) + ')%bool'
        if isinstance(n, ast.UnaryOp) and isinstance(n.op, ast.Not):
            v = self.test(n.operand)
            return (not v) if v in (True, False) else 'negb (%s)' % v
        if isinstance(n, ast.Compare) and len(n.ops) == 1:
            l, r = self.fixed(n.left), self.fixed(n.comparators[0])
            if l is not None and r is not None:
                l, r = l[0], r[0]
                o = n.ops[0]
                return {ast.Eq: l == r, ast.NotEq: l != r, ast.Is: l is r or l == r, ast.IsNot: not (l is r or l == r)}.get(type(o)) if isinstance(o, (ast.Eq, ast.NotEq, ast.Is, ast.IsNot)) else \
                       {ast.Lt: lambda: l < r, ast.Gt: lambda: l > r, ast.LtE: lambda: l <= r, ast.GtE: lambda: l >= r, ast.In: lambda: l in r}[type(o)]()
        v = self.fixed(n)
        if v is not None:
            return bool(v[0])
        v = self.expr(n)[0]
        return self.spec.get('assume', {}).get(v, v)

    def fixed(self, n):
        if self.is_option(n):
            k, v = self.option(n.slice)
            if k == 'const':
                return (v,)
        if isinstance(n, ast.Constant):
            return (n.value,)
        if isinstance(n, ast.Name) and n.id in self.known:
            return (self.known[n.id],)
        if isinstance(n, ast.Name) and n.id in self.consts and isinstance(self.consts[n.id], ast.Constant):
            return (self.consts[n.id].value,)
        if isinstance(n, ast.Attribute) and ast.unparse(n).split('.')[0] in ENUMS:
            return (n.attr,)
        if isinstance(n, (ast.Tuple, ast.List)) and all(self.fixed(x) is not None for x in n.elts):
            return ([self.fixed(x)[0] for x in n.elts],)
        return None

    # ---- statements
    def targets(self, s):
        out = []
        for x in s:
            if isinstance(x, ast.Assign):
                for t in x.targets:
                    out += [self.slot(u) for u in (t.elts if isinstance(t, (ast.Tuple, ast.List)) else [t])]
            elif isinstance(x, ast.AugAssign):
                out.append(self.slot(x.target))
            elif isinstance(x, ast.If):
                out += self.targets(x.body) + self.targets(x.orelse)
        seen = []
        for o in out:
            if o not in seen:
                seen.append(o)
        return seen

    def slot(self, t):
        """(scope key, coq identifier)"""
        if isinstance(t, ast.Name):
            return (t.id, self.coqname(t.id))
        if isinstance(t, ast.Subscript):
            base = ast.unparse(t.value)
            if base == 'outputs':
                v = self.varname(t.slice)
                return ('out ' + v, 'o_' + re.sub('^(Aircraft|Mission|Dynamic|v)_', '', v))
            if base in ('J', 'partials', 'jacobian') and isinstance(t.slice, ast.Tuple):
                a, b = (self.varname(x) for x in t.slice.elts)
                sh = lambda v: re.sub('^(Aircraft|Mission|Dynamic|v)_', '', v)
                return ('J %s %s' % (a, b), 'd_%s__%s' % (sh(a), sh(b)))
            if self.mask(t) is not None:
                return self.slot(t.value)
        if isinstance(t, ast.Attribute):
            return (ast.unparse(t), self.coqname(t.attr))
        raise Unsupported('target ' + ast.unparse(t))

    def mask(self, t):
        """x[cond] = v, x[0] = v and x[:] = v: the condition, or True when all of x is set."""
        if not isinstance(t, ast.Subscript) or isinstance(t.slice, ast.Tuple) or ast.unparse(t.value) in ('outputs', 'J', 'partials', 'jacobian', 'inputs'):
            return None
        if isinstance(t.slice, ast.Slice) and t.slice.lower is None and t.slice.upper is None and t.slice.step is None:
            return True
        if isinstance(t.slice, ast.Constant) and t.slice.value == 0:
            return True
        if isinstance(t.slice, (ast.Compare, ast.BoolOp)):
            return t.slice
        if isinstance(t.slice, ast.Name) and self.kinds.get(t.slice.id) == 'mask':
            return t.slice
        if isinstance(t.slice, ast.Call) and ast.unparse(t.slice.func) in ('np.where', 'np.logical_and', 'np.logical_or'):
            return t.slice
        return None

    def alias_of(self, s):
        """name = Aircraft.X.Y (a variable name, not a value)."""
        if isinstance(s, ast.Assign) and len(s.targets) == 1 and isinstance(s.targets[0], ast.Name):
            if ast.unparse(s.value) in VARS or (isinstance(s.value, ast.Constant) and isinstance(s.value.value, str)):
                return s.targets[0].id
        return None

    def block(self, stmts, ind):
        lines = []
        for i, s in enumerate(stmts):
            if isinstance(s, ast.If) and not s.orelse and s.body and isinstance(s.body[-1], ast.Return) and s.body[-1].value is None and i + 1 < len(stmts):
                t = ast.If(s.test, s.body[:-1], stmts[i + 1:])
                t.lineno = s.lineno
                return lines + self.block([t], ind)
            if isinstance(s, ast.If) and not s.orelse and s.body and isinstance(s.body[-1], ast.Return) and s.body[-1].value is not None and i + 1 < len(stmts):
                c = self.test(s.test)
                sc = dict(self.scope)
                a = self.block(s.body, ind + '    ')
                self.scope = sc
                b = self.block(stmts[i + 1:], ind + '    ')
                return lines + ['%sif %s then  (* L%d *)' % (ind, c, s.lineno)] + a + [ind + 'else'] + b
            ln = '(* L%d *)' % s.lineno
            if isinstance(s, ast.Expr) and isinstance(s.value, ast.Constant):
                continue
            if isinstance(s, (ast.Pass,)):
                continue
            if isinstance(s, ast.Expr) and (isinstance(s.value, ast.BinOp) or ast.unparse(s.value).startswith('np.arcsin')):
                continue
            if isinstance(s, ast.Assign) and ast.unparse(s.value) == 'self.options':
                continue
            if isinstance(s, ast.Expr) and isinstance(s.value, ast.Call) and re.match(r'(warnings\.warn|print)', ast.unparse(s.value.func)):
                continue
            a = self.alias_of(s)
            if a:
                self.alias[a] = s.value
                continue
            if isinstance(s, ast.Assign):
                if len(s.targets) != 1:
                    # a = b = expr
                    v = self.expr(s.value)[0]
                    for t in s.targets:
                        key, name = self.slot(t)
                        lines.append('%slet %s := %s in%s' % (ind, name, v, '  ' + ln))
                        self.scope[key] = name
                        v = name
                    continue
                t = s.targets[0]
                if isinstance(t, (ast.Tuple, ast.List)):
                    if ast.unparse(s.value) == 'inputs.values()':
                        if len(t.elts) != len(self.ins):
                            raise Unsupported('inputs.values() of another length')
                        for u, v in zip(t.elts, self.ins):
                            key, name = self.slot(u)
                            lines.append('%slet %s := e %s in  %s' % (ind, name, v, ln))
                            self.scope[key] = name
                        continue
                    if self.is_option(s.value) and len(t.elts) == 2:      # value, units
                        key, name = self.slot(t.elts[0])
                        lines.append('%slet %s := %s in  %s' % (ind, name, self.expr(s.value)[0], ln))
                        self.scope[key] = name
                        continue
                    if isinstance(s.value, ast.Tuple):
                        for u, v in zip(t.elts, s.value.elts):
                            key, name = self.slot(u)
                            lines.append('%slet %s := %s in  %s' % (ind, name, self.expr(v)[0], ln))
                            self.scope[key] = name
                        continue
                    names = [self.slot(u) for u in t.elts]
                    lines.append("%slet '(%s) := %s in  %s" % (ind, ', '.join(x[1] for x in names), self.expr(s.value)[0], ln))
                    for k, nme in names:
                        self.scope[k] = nme
                    continue
                if isinstance(t, ast.Name):
                    f = self.fixed(s.value)
                    if f is not None and not isinstance(s.value, ast.Constant):
                        self.known[t.id] = f[0]
                        if isinstance(f[0], (bool, str)) or f[0] is None:
                            continue
                        v = self.const(f[0])[0]
                    else:
                        self.known.pop(t.id, None)
                        if self.drop(s.value):
                            self.dropped.add(t.id)
                            continue
                        k = self.kind(s.value)
                        v = self.expr(s.value)[0]
                        self.kinds[t.id] = k
                else:
                    m = self.mask(t)
                    if m is not None and m is not True:
                        key, name = self.slot(t)
                        c = self.expr(m)[0]
                        v = 'if %s then %s else %s' % (c, par(self.masked(s.value, m), 50), self.scope[key])
                    else:
                        v = self.expr(s.value)[0]
                key, name = self.slot(t)
                lines.append('%slet %s := %s in  %s' % (ind, name, v, ln))
                self.scope[key] = name
                continue
            if isinstance(s, ast.AugAssign):
                key, name = self.slot(s.target)
                m = self.mask(s.target)
                if m is not None and m is not True:
                    b = ast.BinOp(s.target.value, s.op, s.value)
                    v = 'if %s then %s else %s' % (self.expr(m)[0], par(self.masked(b, m), 50), self.scope[key])
                else:
                    b = ast.BinOp(s.target if m is None else s.target.value, s.op, s.value)
                    v = self.expr(b)[0]
                lines.append('%slet %s := %s in  %s' % (ind, name, v, ln))
                self.scope[key] = name
                continue
            if isinstance(s, ast.For) and self.spec.get('one') and isinstance(s.iter, ast.Call) and ast.unparse(s.iter.func) == 'enumerate':
                i, x = (t.id for t in s.target.elts)
                src = s.iter.args[0]

                class Sub(ast.NodeTransformer):
                    def visit_Name(self, n):
                        return ast.copy_location(ast.Constant(0), n) if n.id == i else src if n.id == x else n
                import copy
                lines += self.block([ast.fix_missing_locations(Sub().visit(copy.deepcopy(t))) for t in s.body], ind)
                continue
            if isinstance(s, ast.If) and any(isinstance(x, ast.Name) and x.id in self.dropped for x in ast.walk(s.test)):
                if not self.effectless(s):
                    raise Unsupported('if on a setting at line %d' % s.lineno)
                continue
            if isinstance(s, ast.If):
                if all(isinstance(x, (ast.Raise, ast.Pass)) or (isinstance(x, ast.Expr)) for x in s.body) and not s.orelse:
                    self.warn.append('guard skipped at line %d: %s' % (s.lineno, ast.unparse(s.test)))
                    continue
                c = self.test(s.test)
                if c is True or c is False:
                    lines += self.block(s.body if c else s.orelse, ind)
                    continue
                assigned = []
                states = []
                base_scope, base_alias, base_kinds, base_known = dict(self.scope), dict(self.alias), dict(self.kinds), dict(self.known)
                for br in (s.body, s.orelse):
                    self.scope, self.alias, self.kinds, self.known = dict(base_scope), dict(base_alias), dict(base_kinds), dict(base_known)
                    ls = self.block(br, ind + '    ')
                    states.append((ls, self.scope))
                    if self.alias != base_alias:
                        raise Unsupported('alias assigned under if')
                tg = [t for t in self.targets(s.body + s.orelse)
                      if any(t[0] in sc and (t[0] not in base_scope or sc[t[0]] != base_scope.get(t[0]) or True) for _, sc in states)]
                tg = [t for t in tg if any(t[0] in sc for _, sc in states)]
                # drop targets that are not assigned on some branch and not defined before
                keep = []
                for t in tg:
                    if all(t[0] in sc for _, sc in states):
                        keep.append(t)
                    elif not t[0].startswith(('out ', 'J ')) and not self.live(t[0], s):
                        continue
                    elif t[0].startswith(('out ', 'J ')) or self.spec.get('unbound') == '*' or t[0] in self.spec.get('unbound', ()):
                        keep.append(t)
                        self.warn.append('%s unassigned on one branch (line %d): 0 taken' % (t[0], s.lineno))
                    else:
                        self.warn.append('local %s defined on one branch only (line %d)' % (t[0], s.lineno))
                self.scope, self.alias, self.kinds, self.known = dict(base_scope), base_alias, base_kinds, base_known
                for t in keep:
                    self.known.pop(t[0], None)
                if not keep:
                    continue
                def res(sc):
                    vs = [sc.get(t[0], '0') for t in keep]
                    return vs[0] if len(vs) == 1 else '(' + ', '.join(vs) + ')'
                pat = keep[0][1] if len(keep) == 1 else "'(" + ', '.join(t[1] for t in keep) + ')'
                lines.append('%slet %s :=  %s' % (ind, pat, ln))
                lines.append('%s  if %s then' % (ind, c))
                lines += states[0][0] + ['%s    %s' % (ind, res(states[0][1]))]
                lines.append('%s  else' % ind)
                lines += states[1][0] + ['%s    %s in' % (ind, res(states[1][1]))]
                for t in keep:
                    self.scope[t[0]] = t[1]
                continue
            if isinstance(s, ast.Return):
                if s.value is None:
                    continue
                v = s.value
                lines.append(ind + (self.expr(v)[0] if not isinstance(v, (ast.Tuple, ast.List)) else '(' + ', '.join(self.expr(x)[0] for x in v.elts) + ')'))
                continue
            if isinstance(s, ast.Raise):
                self.warn.append('raise at line %d: nothing assigned on that branch' % s.lineno)
                continue
            raise Unsupported('statement at line %d: %s' % (s.lineno, ast.unparse(s)[:60]))
        return lines

    def masked(self, v, m):
        """The value of x[mask] = v, where v may read y[mask]."""
        mt = ast.unparse(m)

        class Strip(ast.NodeTransformer):
            def visit_Subscript(self, n):
                self.generic_visit(n)
                return n.value if ast.unparse(n.slice) == mt else n
        import copy
        return self.expr(Strip().visit(copy.deepcopy(v)))

    def live(self, name, s):
        """The local variable is read after the statement."""
        return any(isinstance(x, ast.Name) and x.id == name and isinstance(x.ctx, ast.Load) and x.lineno > max(y.end_lineno for y in ast.walk(s) if hasattr(y, 'end_lineno') and y.end_lineno)
                   for x in ast.walk(self.fn))

    def effectless(self, s):
        """Only prints, warnings and attributes of the component."""
        if isinstance(s, ast.If):
            return all(self.effectless(x) for x in s.body + s.orelse)
        if isinstance(s, ast.Assign):
            return all(ast.unparse(t).startswith('self.warned') for t in s.targets)
        if isinstance(s, ast.Raise):
            self.warn.append('raise at line %d skipped' % s.lineno)
            return True
        return isinstance(s, ast.Expr) and isinstance(s.value, ast.Call) and re.match(r'(warnings\.warn|print)', ast.unparse(s.value.func)) is not None

    def drop(self, v):
        t = ast.unparse(v)
        return t.startswith(('self.options[Settings', 'len(')) or t in self.spec.get('drop', ())

    def method(self, names):
        for s in self.cls.body:
            if isinstance(s, ast.FunctionDef) and s.name in names:
                return s
        return None

    def run(self, fn, prefix):
        self.scope, self.kinds, self.known, self.alias = {}, {}, {}, dict(getattr(self, 'base_alias', {}))
        self.fn = fn
        lines = self.block(fn.body, '  ')
        slots = [(k, v) for k, v in self.scope.items() if k.startswith(prefix)]
        return lines, slots

    # ---- setup
    def setup(self):
        ins, outs, decl = [], [], []
        names = []

        def names_of(n):
            if isinstance(n, (ast.List, ast.Tuple)):
                return [x for y in n.elts for x in names_of(y)]
            if isinstance(n, ast.Starred):
                return names_of(n.value)
            if isinstance(n, ast.Constant) and isinstance(n.value, str) and '*' in n.value:
                return [n.value]
            if isinstance(n, ast.Name) and n.id in lists:
                return lists[n.id]
            return [self.varname(n)]
        lists = {}
        self.nodes = []
        self.arrays = {}
        NODE = re.compile(r'\bnn\b|\bnum_nodes\b|\bnum_nodes_\b')

        def node(kw):
            return any(k in kw and NODE.search(ast.unparse(kw[k])) for k in ('shape', 'val'))

        def arr(n):
            t = ast.unparse(n)
            t = self.arrays.get(t, t)
            return re.sub(r"self\.options\['num_nodes'\]|\bnum_nodes\b", 'nn', t)

        def go(stmts):
            for s in stmts:
                if isinstance(s, ast.If):
                    c = self.test(s.test)
                    if c is True or c is False:
                        go(s.body if c else s.orelse)
                    else:
                        raise Unsupported('setup depends on %s' % c)
                elif isinstance(s, ast.Expr) and isinstance(s.value, ast.Call):
                    f = ast.unparse(s.value.func)
                    kw = {k.arg: k.value for k in s.value.keywords}
                    a = s.value.args
                    if f == 'add_aviary_input':
                        ins.append(self.varname(a[1] if len(a) > 1 else kw.get('varname') or kw['name']))
                        if node(kw):
                            self.nodes.append(ins[-1])
                    elif f == 'add_aviary_output':
                        outs.append(self.varname(a[1]))
                        if node(kw):
                            self.nodes.append(outs[-1])
                    elif f == 'self.add_input':
                        ins.append(self.varname(a[0] if a else kw['name']))
                        if node(kw) or (len(a) > 1 and NODE.search(ast.unparse(a[1]))):
                            self.nodes.append(ins[-1])
                    elif f == 'self.add_output':
                        outs.append(self.varname(a[0] if a else kw['name']))
                        if node(kw) or (len(a) > 1 and NODE.search(ast.unparse(a[1]))):
                            self.nodes.append(outs[-1])
                    elif f == 'self.declare_partials':
                        of = a[0] if a else kw['of']
                        wrt = a[1] if len(a) > 1 else kw['wrt']
                        val = kw.get('val')
                        if len(a) > 5:
                            raise Unsupported('declare_partials')
                        if kw.get('method') is not None:
                            self.warn.append('declared with method ' + ast.unparse(kw['method']))
                        rows = kw.get('rows', a[3] if len(a) > 3 else None)
                        cols = kw.get('cols', a[4] if len(a) > 4 else None)
                        sp = None if rows is None else (arr(rows), arr(cols))
                        if val is not None and ast.unparse(val) in ('np.identity(nn)', 'np.eye(nn)'):
                            val, sp = ast.Constant(1), ('np.arange(nn)', 'np.arange(nn)')
                        decl.append((names_of(of), names_of(wrt), None if val is None else self.expr(val)[0], sp))
                    elif f in ('super().setup', 'super().setup_partials'):
                        raise Unsupported('super setup')
                elif isinstance(s, ast.Assign) and isinstance(s.targets[0], ast.Name):
                    t = s.targets[0].id
                    for u in s.targets[1:]:
                        if isinstance(u, ast.Name) and ast.unparse(s.value).startswith(('np.arange', 'np.zeros')):
                            self.arrays[u.id] = ast.unparse(s.value)
                    if isinstance(s.value, (ast.List, ast.Tuple)):
                        try:
                            lists[t] = names_of(s.value)
                        except Unsupported:
                            pass
                        continue
                    if ast.unparse(s.value) in VARS or (isinstance(s.value, ast.Constant) and isinstance(s.value.value, str)):
                        self.alias[t] = s.value
                        continue
                    if ast.unparse(s.value).startswith(('np.arange', 'np.zeros')):
                        self.arrays[t] = ast.unparse(s.value)
                        continue
                    f = self.fixed(s.value)
                    if f is not None:
                        self.known[t] = f[0]
                    elif self.is_option(s.value):
                        k, v = self.option(s.value.slice)
                        self.scope[t] = '(' + v + ')'
                        self.kinds[t] = k
                    elif not ast.unparse(s.value).startswith(('len(', 'self.options[\'num_')):
                        try:
                            self.scope[t] = '(' + self.expr(s.value)[0] + ')'
                        except Unsupported:
                            pass
                elif isinstance(s, ast.For):
                    it = names_of(s.iter) if isinstance(s.iter, (ast.List, ast.Tuple, ast.Name)) else None
                    if it is None:
                        raise Unsupported('for in setup')
                    raise Unsupported('for in setup')
        self.scope, self.kinds, self.known, self.alias = {}, {}, {}, dict(getattr(self, 'base_alias', {}))
        for m in ('setup', 'setup_partials'):
            fn = self.method([m])
            if fn:
                go(fn.body)
        pairs = {}
        self.sparse = {}
        for of, wrt, val, sp in decl:
            of = [o for x in of for o in (outs if x == '*' else [o for o in outs if self.glob(x, o)] if '*' in x else [x])]
            wrt = [o for x in wrt for o in (ins if x == '*' else [o for o in ins if self.glob(x, o)] if '*' in x else [x])]
            for o in of:
                for i in wrt:
                    pairs[(o, i)] = val if val is not None else '0'
                    self.sparse[(o, i)] = sp
        return ins, outs, pairs

    def glob(self, pat, name):
        import fnmatch
        return fnmatch.fnmatchcase(self.used_vars[name], pat)


def cite(spec, cls, fn):
    return '%s L%d-%d' % (spec['file'], fn.lineno, fn.end_lineno)


def component(spec, functions, used, modconsts):
    path = REPO + spec['file']
    src = open(path).read()
    for a, b in spec.get('rewrite', ()):          # changes of the source text, listed in the specification of the area
        assert a in src and a.count('\n') == b.count('\n'), a
        src = src.replace(a, b)
    tree = ast.parse(src)
    cls = [s for s in tree.body if isinstance(s, ast.ClassDef) and s.name == spec['cls']][0]
    tr = Tr(src, cls, spec, functions)
    tr._idents = set(modconsts)
    tr.modfuns = {s.name: s for s in tree.body if isinstance(s, ast.FunctionDef)}
    for s in tree.body:
        if isinstance(s, ast.Assign) and isinstance(s.targets[0], ast.Name) and not isinstance(s.value, ast.Call):
            if ast.unparse(s.value) in VARS:
                tr.base_alias = {**getattr(tr, 'base_alias', {}), s.targets[0].id: s.value}
            else:
                tr.consts[s.targets[0].id] = s.value
    for s in cls.body:
        if isinstance(s, ast.Assign) and isinstance(s.targets[0], ast.Name):
            tr.consts[s.targets[0].id] = s.value
    for m in cls.body:
        if isinstance(m, ast.FunctionDef) and m.name in ('setup', 'initialize', '__init__'):
            for s in ast.walk(m):
                if isinstance(s, ast.Assign) and isinstance(s.targets[0], ast.Attribute) and ast.unparse(s.targets[0].value) == 'self':
                    tr.consts[s.targets[0].attr] = s.value
    name = spec.get('name', spec['cls'])
    ins, outs, pairs = tr.setup()
    tr.ins = ins
    comp = tr.method(['compute'])
    part = tr.method(['compute_partials'])
    L = []
    lines, slots = tr.run(comp, 'out ')
    d = dict(slots)
    for o in outs:
        if 'out ' + o not in d:
            tr.warn.append('output %s never assigned' % o)
    fixtxt = ''
    if spec.get('fix'):
        fixtxt = ' with ' + ', '.join('%s = %s' % (k, v) for k, v in spec['fix'].items())
    onetxt = ' (one engine type or one node)' if spec.get('one') else ''
    L.append('(** %s.compute, /repo/aviary/%s%s%s *)' % (spec['cls'], cite(spec, cls, comp), fixtxt, onetxt))
    sig, app = ''.join(' (%s)' % a for a in spec.get('args', ())), ''.join(' ' + a.split(' :')[0] for a in spec.get('args', ()))
    L.append('Definition %s_compute%s (op : options) (e : env) : list (string * R) :=' % (name, sig))
    L += lines
    L.append('  [' + ';\n   '.join('(%s, %s)' % (k[4:], v) for k, v in slots) + '].')
    L.append('')
    if part is not None:
        lines, slots = tr.run(part, 'J ')
        L.append('(** %s.compute_partials, /repo/aviary/%s *)' % (spec['cls'], cite(spec, cls, part)))
        L.append('Definition %s_partials%s (op : options) (e : env) : list (string * string * R) :=' % (name, sig))
        L += lines
        L.append('  [' + ';\n   '.join('(%s, %s, %s)' % (k.split()[1], k.split()[2], v) for k, v in slots) + '].')
        for k, v in slots:
            if (k.split()[1], k.split()[2]) not in pairs:
                tr.warn.append('ASSIGNED BUT NOT DECLARED: %s' % k)
    else:
        L.append('Definition %s_partials (op : options) (e : env) : list (string * string * R) := [].' % name)
    L.append('')
    # node components: every partial that can be nonzero must have the sparsity that lift models
    if tr.nodes:
        assigned = set() if part is None else {(k.split()[1], k.split()[2]) for k, v in slots}
        for o in outs:
            if o not in tr.nodes:
                tr.warn.append('SCALAR OUTPUT %s of a node component' % o)
        for (o, i), v in pairs.items():
            live = (o, i) in assigned or v != '0'
            sp = tr.sparse[(o, i)]
            diag = sp is not None and sp[0] == sp[1] and sp[0].replace(' ', '') in ('np.arange(nn)', 'np.arange(nn,dtype=int)', "np.arange(0,nn)")
            if i in tr.nodes:
                if live and not diag:
                    tr.warn.append('DENSE node partial %s %s (%s)' % (o, i, sp))
            elif sp is not None and not (sp[1].startswith('np.zeros') and sp[0].startswith('np.arange')):
                tr.warn.append('SHARED input with sparsity %s %s (%s)' % (o, i, sp))
    fn = tr.method(['setup'])
    L.append('(** Inputs, outputs and declared partials: /repo/aviary/%s L%d-%d *)' % (spec['file'], fn.lineno, (tr.method(['setup_partials']) or fn).end_lineno))
    L.append('Definition %s%s (op : options) : comp := {|' % (name, sig))
    L.append('  c_ins := [' + ';\n            '.join(ins) + '];')
    L.append('  c_outs := [' + ';\n             '.join(outs) + '];')
    L.append('  c_decl := [' + ';\n             '.join('(%s, %s, %s)' % (o, i, v) for (o, i), v in pairs.items()) + '];')
    L.append('  c_run := %s_compute%s op; c_jac := %s_partials%s op |}.' % (name, app, name, app if part is not None else ''))
    L.append('')
    if tr.nodes:
        sh = [i for i in ins if i not in tr.nodes]
        L.append('(** The inputs that are scalars, shared by all nodes. *)')
        L.append('Definition %s_shared : list string := [%s].' % (name, '; '.join(sh)))
        L.append('')
    used.update(tr.used_vars)
    return '\n'.join(L), tr.warn


def function(spec, functions, used):
    """A module-level function of real arguments."""
    path = REPO + spec['file']
    tree = ast.parse(open(path).read())
    fn = [s for s in tree.body if isinstance(s, ast.FunctionDef) and s.name == spec['fun']][0]
    tr = Tr('', ast.ClassDef(name='', body=[], bases=[], keywords=[], decorator_list=[]), spec, functions)
    for s in tree.body:
        if isinstance(s, ast.Assign) and isinstance(s.targets[0], ast.Name) and isinstance(s.value, ast.Constant):
            tr.consts[s.targets[0].id] = s.value
    args = [a.arg for a in fn.args.args]
    tr.scope = {a: tr.coqname(a) for a in args}
    sig = spec.get('sig', {})
    tr.kinds, tr.known, tr.alias = {a: {'string': 'enum', 'bool': 'bool'}[t] for a, t in sig.items()}, {}, {}
    tr.fn = fn
    lines = tr.block(fn.body, '  ')
    name = spec.get('name', spec['fun'])
    functions[spec['fun']] = (name, args)
    L = ['(** %s, /repo/aviary/%s *)' % (spec['fun'], cite(spec, None, fn)),
         'Definition %s %s: %s :=' % (name, ''.join('(%s : %s) ' % (tr.coqname(a), sig.get(a, 'R')) for a in args), spec.get('ret', 'R'))]
    L += lines
    L[-1] += '.'
    L.append('')
    used.update(tr.used_vars)
    return '\n'.join(L), tr.warn


def wrap(l, width=118):
    if len(l) <= width or l.lstrip().startswith('(**'):
        return l
    m = re.match(r'( *)(.*?)(  \(\* L\d+ \*\))?$', l)
    ind, body, com = m.group(1), m.group(2), m.group(3) or ''
    out, cur = [], ind
    for w in body.split(' '):
        if len(cur) + len(w) + 1 > width and cur.strip():
            out.append(cur)
            cur = ind + '    ' + w
        else:
            cur = cur + (' ' if cur.strip() else '') + w
    out.append(cur + com)
    return '\n'.join(out)


def main():
    ns = {}
    path = sys.argv[1]
    exec(open(path).read(), ns)
    functions = dict(ns.get('FUNCTIONS', {}))
    used = {}
    parts = []
    ok = 0
    for spec in ns['SPECS']:
        try:
            t, w = (function(spec, functions, used) if 'fun' in spec else component(spec, functions, used, ()))
            parts.append(t)
            ok += 1
            for x in w:
                print('  warn %s: %s' % (spec.get('cls') or spec.get('fun'), x))
        except Unsupported as ex:
            print('UNSUPPORTED %s: %s' % (spec.get('cls') or spec.get('fun'), ex))
    head = ns['HEADER'].rstrip() + '\n'
    imports = ' '.join(ns.get('IMPORTS', []))
    text = '(** ' + head.strip() + '\n\n    Generated by tools/py2coq.py from the source text; see the header of that file for the rules.  Decimal\n    literals are exact and numbers are real numbers. *)\n'
    text += 'From Coq Require Import Reals.\nFrom Verif Require Import Base Comp%s.\n' % (' ' + imports if imports else '')
    text += 'Open Scope list_scope.\nOpen Scope string_scope.\nLocal Open Scope R_scope.\n\n'
    text += '(** ** Variable names, /repo/aviary/variable_info/variables.py *)\n'
    for k in sorted(used):
        text += 'Definition %s := "%s".\n' % (k, used[k])
    text += '\n' + ns.get('PRELUDE', '')
    text += '\n' + '\n'.join(parts)
    text = '\n'.join(wrap(l) for l in text.split('\n'))
    open(os.path.join(ROOT, 'rocq/theories', ns['NAME'] + 'Model.v'), 'w').write(text)
    print(ns['NAME'], ok, 'of', len(ns['SPECS']))


if __name__ == '__main__':
    main()
