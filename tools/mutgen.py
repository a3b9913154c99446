"""Wrong versions of translated components, chosen by position in the model text.

Kinds: a partial doubled or negated, a partial never assigned or not declared, an output changed with the partials
left alone, and 'consistent', where an output and its partials are scaled together so that only theorems about the
meaning of the output can notice.
"""
import random
import re

LET = r'let (%s) := ((?:(?! in  \(\*)(?!\bif\b)[\s\S])*?)\s+in  \(\* (L\d+) \*\)'


def parts(src, c):
    a = src.index('Definition %s_compute ' % c)
    b = src.index('Definition %s_partials ' % c)
    z = src.index('Definition %s (' % c)
    return src[a:b], src[b:z], src[z:src.index('|}.', z)]


def auto(area, claim, kinds, count, seed=7):
    """count mutants of the area, cycling through the kinds; claim maps a component to its property id"""
    rng = random.Random(seed)
    src = open('rocq/theories/%sModel.v' % area).read()
    comps = re.findall(r'^Definition (\w+)_compute ', src, re.M)
    comps = [c for c in comps if 'Definition %s (' % c in src]
    rng.shuffle(comps)
    res = []
    j = 0
    while len(res) < count and j < 4 * len(comps):
        c, kind = comps[j % len(comps)], kinds[j % len(kinds)]
        j += 1
        try:
            comp, part, rec = parts(src, c)
        except ValueError:
            continue
        cl = claim(c) if callable(claim) else claim
        lets = re.findall(LET % r'd_\w+', part)
        outs = re.findall(LET % r'o_\w+', comp) or re.findall(LET % r'\w+', comp)[-1:]

        def add(where, edit, old, new):
            if old != new and src.count(old) == 1 and not any(r['new'] == new for r in res):
                res.append(dict(file=area + 'Model.v', definition=where, edit=edit, breaks='%s_%s' % (cl, c), old=old, new=new, focus=c))

        if kind in ('partial', 'sign') and lets:
            n, v, _ = rng.choice(lets)
            how = '2 * (%s)' if kind == 'partial' else '- (%s)'
            add(c + '_partials', ('partial %s doubled' if kind == 'partial' else 'sign of partial %s') % n, part,
                part.replace('let %s := %s' % (n, v), 'let %s := %s' % (n, how % v)))
        elif kind == 'missing' and lets:
            i = part.rindex('  [(')
            body = part[i:]
            items = re.findall(r'\([^()]*?\)', body)
            if len(items) > 1:
                add(c + '_partials', 'first partial never assigned', part, part[:i] + body.replace(items[0] + ';', '', 1))
        elif kind == 'undeclared' and 'c_decl := [(' in rec and rec.count(');\n') >= 1:
            add(c, 'first partial not declared', rec, re.sub(r'c_decl := \[\(.*?\);\s*\(', 'c_decl := [(', rec, count=1, flags=re.S))
        elif kind == 'output' and outs:
            n, v, _ = rng.choice(outs)
            add(c + '_compute', 'output %s tripled, partials unchanged' % n, comp,
                comp.replace('let %s := %s' % (n, v), 'let %s := 3 * (%s)' % (n, v)))
        elif kind == 'consistent' and outs and outs[0][0].startswith('o_'):
            n, v, _ = rng.choice(outs)
            newc = comp.replace('let %s := %s' % (n, v), 'let %s := 3 * (%s)' % (n, v))
            newp = re.sub(r'let (d_%s__\w+) := ((?:(?! in  \(\*)[\s\S])*?)(\s+in  \(\*)' % n[2:], r'let \1 := 3 * (\2)\3', part)
            whole = src[src.index(comp):src.index(rec) + len(rec)]
            newr = rec
            add(c, 'output %s and its partials tripled' % n, whole, whole.replace(comp, newc).replace(part, newp).replace(rec, newr))
    return res
