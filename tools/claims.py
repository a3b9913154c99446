"""Single source for properties.jsonl, MANIFEST.json and the per-property part of DESIGN.md.

Run:  python3 tools/claims.py     (from /verif)
"""
import json, os, re

ROOT = os.path.dirname(os.path.dirname(os.path.abspath(__file__)))
CLAIMS = []


def C(id, title, statement, quantifier, why, anchors, plan, status='planned', theorems=(), note=''):
    CLAIMS.append(dict(id=id, title=title, statement=statement, quantifier=quantifier,
                       why_tests_cant=why, anchors=list(anchors), plan=plan,
                       status=status, theorems=list(theorems), note=note))


NOTES = {}


def N(id, note, status=None):
    NOTES[id] = (note, status)


exec(open(os.path.join(ROOT, 'tools', 'claims_data.py')).read())


def collect():
    """Attach to each claim the theorems named after it in the files listed in _CoqProject."""
    rocq = os.path.join(ROOT, 'rocq')
    found = {}
    for line in open(os.path.join(rocq, '_CoqProject')):
        line = line.strip()
        if not line.endswith('.v'):
            continue
        for m in re.finditer(r'^Theorem (C\d+)(_\w+)', open(os.path.join(rocq, line)).read(), re.M):
            found.setdefault(m.group(1), []).append(m.group(1) + m.group(2))
    for c in CLAIMS:
        c['theorems'] = found.pop(c['id'], [])
        note, status = NOTES.get(c['id'], ('', None))
        c['note'] = note
        if c['theorems']:
            c['status'] = status or ('partial' if any(t.endswith('_partial') for t in c['theorems']) else 'proved')
    assert not found, f'theorems without a claim: {found}'


def main():
    collect()
    ids = [c['id'] for c in CLAIMS]
    assert len(ids) == len(set(ids)), 'duplicate id'
    with open(os.path.join(ROOT, 'properties.jsonl'), 'w') as f:
        for c in CLAIMS:
            f.write(json.dumps({k: c[k] for k in ('id', 'title', 'statement', 'quantifier',
                                                  'why_tests_cant', 'anchors')}) + '\n')
    man = []
    for c in CLAIMS:
        if c['status'] == 'planned':
            continue
        man.append(dict(property=c['id'], status=c['status'], theorems=c['theorems'], note=c['note']))
    with open(os.path.join(ROOT, 'MANIFEST.json'), 'w') as f:
        json.dump({'claims': man}, f, indent=1)
        f.write('\n')
    head = open(os.path.join(ROOT, 'tools', 'design_head.md')).read()
    out = [head, '\n## Per-property plan and status\n']
    for c in CLAIMS:
        out.append(f"### {c['id']} {c['title']}  —  {c['status']}\n")
        out.append(f"*Claim.* {c['statement']}\n")
        out.append(f"*Model and proof.* {c['plan']}\n")
        if c['theorems']:
            out.append('*Theorems.* ' + ', '.join(f'`{t}`' for t in c['theorems']) + '\n')
        if c['note']:
            out.append(f"*Note.* {c['note']}\n")
    tail = os.path.join(ROOT, 'tools', 'design_tail.md')
    if os.path.exists(tail):
        out.append(open(tail).read())
    with open(os.path.join(ROOT, 'DESIGN.md'), 'w') as f:
        f.write('\n'.join(out))


if __name__ == '__main__':
    main()
