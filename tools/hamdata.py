"""Write rocq/theories/HamData.v: the tables of hamilton_standard.py L245-456 as integers, ten thousandths."""
from fractions import Fraction
import re
P = '/repo/aviary/subsystems/propulsion/propeller/hamilton_standard.py'
src = open(P).read().split('\n')
lo = next(i for i, l in enumerate(src) if l.startswith('CP_Angle_table'))
hi = next(i for i, l in enumerate(src) if l.startswith('class PreHamiltonStandard'))


class np:
    array = staticmethod(lambda x: x)


g = {'np': np, 'F': Fraction}
text = '\n'.join(l.split('#')[0] for l in src[lo:hi])
text = re.sub(r'(?<![A-Za-z_0-9])(-?)(\d*\.\d+|\d+\.?\d*)(?![A-Za-z_0-9])', lambda m: "F('%s')" % m.group(0), text)
exec(text, g)


def num(q):
    z = q * 10000
    assert z.denominator == 1, q
    z = z.numerator
    return str(z) if z >= 0 else '(%d)' % z


def show(v):
    return '[' + '; '.join(show(x) for x in v) + ']' if isinstance(v, (list, tuple)) else num(v)


def wrap(s, ind, width=112):
    out, line = [], ''
    for w in s.split(' '):
        if len(line) + len(w) + 1 > width:
            out.append(line)
            line = ''
        line = (line + ' ' + w) if line else w
    out.append(line)
    return ('\n' + ' ' * ind).join(out)


print('''(** Tables of the Hamilton Standard propeller method, /repo/aviary/subsystems/propulsion/propeller/hamilton_standard.py
    L245-456.  Written by tools/hamdata.py; numbers are in units of 1/10000 (exact). *)
From Coq Require Import ZArith List.
Import ListNotations.
Local Open Scope Z_scope.
''')
for i in range(lo, hi):
    m = re.match(r'([A-Za-z_0-9]+) = ', src[i])
    if not m:
        continue
    n = m.group(1)
    v = g[n]
    depth = 0
    w = v
    while isinstance(w, (list, tuple)):
        depth += 1
        w = w[0]
    ty = 'Z'
    for _ in range(depth):
        ty = 'list ' + (ty if ty == 'Z' else '(' + ty + ')')
    if n in ('ang_arr_len', 'cli_arr_len'):
        print('(** L%d, counts *)\nDefinition %s : list nat := [%s]%%nat.\n' % (i + 1, n, '; '.join(str(int(x)) for x in v)))
    else:
        print('(** L%d *)\nDefinition %s_z : %s :=\n  %s.\n' % (i + 1, n, ty, wrap(show(v), 2)))
