"""Writes rocq/theories/AtmData.v: the atmosphere tables of /repo/aviary/subsystems/atmosphere/data as exact decimals.

usage: python3 tools/atmdata.py > rocq/theories/AtmData.v
"""
import glob, os, re
from fractions import Fraction

DATA = '/repo/aviary/subsystems/atmosphere/data/'
NUM = re.compile(r'[-+]?(?:\d+\.?\d*|\.\d+)(?:[eE][-+]?\d+)?')


def load(name):
    s = open(DATA + name + '.py').read()
    out = {}
    for key in ['alt', 'akima_T', 'akima_P', 'akima_rho', 'akima_dT']:
        m = re.search(r'atm_data\.' + key + r'\s*=\s*\\?\s*np\.array\(', s)
        i = j = m.end()
        depth = 1
        while depth:
            depth += {'(': 1, ')': -1}.get(s[j], 0)
            j += 1
        xs = NUM.findall(s[i:j - 1])
        first, last = s.count('\n', 0, m.start()) + 1, s.count('\n', 0, j) + 1
        out[key] = (xs if key == 'alt' else [xs[k:k + 4] for k in range(0, len(xs), 4)], first, last)
    return out


def lit(x):
    """Exact decimal as (mantissa, exponent)."""
    f = Fraction(x)
    e = 0
    while f.denominator != 1:
        f *= 10
        e += 1
    m = f.numerator
    return f'dec {m} {e}' if m >= 0 else f'dec ({m}) {e}'


def names():
    return sorted(os.path.basename(f)[:-3] for f in glob.glob(DATA + '*.py') if '__init__' not in f)


def main():
    print('''(** The atmosphere tables of /repo/aviary/subsystems/atmosphere/data, written by tools/atmdata.py.

    Every number is the decimal that stands in the file (a float there).  Altitudes in metres; the four coefficients of a
    row are those of the cubic in the distance from the lower end of the bin. *)
From Coq Require Import List ZArith QArith.
From Verif Require Import AtmModel.
Import ListNotations.
Open Scope list_scope.
Open Scope Z_scope.
''')
    for n in names():
        t = load(n)
        print(f'(** {n}.py *)')
        for key in ['alt', 'akima_T', 'akima_P', 'akima_rho', 'akima_dT']:
            v, a, b = t[key]
            print(f'(** L{a}-{b} *)')
            if key == 'alt':
                print(f'Definition {n}_alt : list decimal := [{"; ".join(lit(x) for x in v)}].')
            else:
                print(f'Definition {n}_{key} : list coefD := [')
                print(';\n'.join('  q4 ' + ' '.join('(' + lit(x) + ')' for x in r) for r in v) + '].')
        print(f'Definition {n}_D : tableD := {{| t_alt := {n}_alt; t_T := {n}_akima_T; t_P := {n}_akima_P; t_rho := {n}_akima_rho; t_dT := {n}_akima_dT |}}.')
        print(f'Definition {n} : tableQ := tableQ_of {n}_D.\n')


main()
