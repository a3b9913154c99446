"""Wrong-program experiments.

usage: python3 tools/mutate.py tools/mutants/<area>.py [index ...] [--log]

Each mutant edits one model definition in a scratch copy of rocq/ (outside this directory), rebuilds the
files that depend on it, and reports which property theorems no longer prove.  A lemma whose script fails
is admitted in the scratch copy so that the later files can still be checked; a property theorem counts as
failed when its own script fails or when Print Assumptions lists an admitted lemma.
With --log one JSON line per mutant is appended to seeded/LOG.jsonl.
"""
import json, multiprocessing, os, re, shutil, subprocess, sys

ROOT = os.path.dirname(os.path.dirname(os.path.abspath(__file__)))
ROCQ = os.path.join(ROOT, 'rocq')
SCRATCH = '/tmp/mutants'
START = re.compile(r'^\s*(?:Local |Global )?(Lemma|Theorem|Corollary|Example|Fact|Remark)\s+(\w+)', re.M)


def order():
    return [l.strip() for l in open(os.path.join(ROCQ, '_CoqProject')) if l.strip().endswith('.v')]


def deps(files):
    out = subprocess.run(['coqdep', '-Q', 'theories', 'Verif'] + files, cwd=ROCQ, capture_output=True, text=True).stdout
    d = {}
    for line in out.splitlines():
        m = re.match(r'(\S+)\.vo .*?: (.*)', line)
        if m:
            d[m.group(1) + '.v'] = [x[:-1] for x in m.group(2).split() if x.endswith('.vo') and x.startswith('theories')]
    return d


def compile_(scratch, path):
    r = subprocess.run(['timeout', '700', 'coqc', '-Q', 'theories', 'Verif', path], cwd=scratch + '/rocq',
                       capture_output=True, text=True)
    return r.returncode, r.stdout, r.stderr


def admit_at(scratch, path, line):
    full = os.path.join(scratch, 'rocq', path)
    src = open(full).read()
    pos = sum(len(l) + 1 for l in src.split('\n')[:line - 1]) + len(src.split('\n')[line - 1])
    starts = [m for m in START.finditer(src) if m.start() <= pos]
    if not starts:
        return None
    m = starts[-1]
    p = re.compile(r'\bProof\b[^.]*\.').search(src, m.start())
    q = re.compile(r'\b(Qed|Defined)\.').search(src, p.end() if p else m.start())
    if not p or not q or p.start() > pos:
        return None
    src = src[:p.start()] + 'Proof. Admitted.' + src[q.end():]
    open(full, 'w').write(src)
    return m.group(2)


def focus(scratch, path, name):
    """Admit the theorems and examples of a file that do not speak about the mutated component, to save time."""
    full = os.path.join(scratch, 'rocq', path)
    src = open(full).read()

    def keep(m):
        block = m.group(0)
        if re.search(r'\b%s\b' % name, block):
            return block
        return re.sub(r'\bProof\b[\s\S]*$', 'Proof. Admitted.', block)
    src = re.sub(r'^(Theorem|Example) (?:(?!\bQed\.)[\s\S])*?\bQed\.', keep, src, flags=re.M)
    open(full, 'w').write(src)


def run_one(job):
    idx, mu = job
    scratch = '%s/%d' % (SCRATCH, os.getpid())
    files = order()
    d = deps(files)
    shutil.rmtree(scratch, ignore_errors=True)
    os.makedirs(scratch)
    subprocess.run(['cp', '-a', ROCQ, scratch + '/rocq'], check=True)
    f = 'theories/' + mu['file']
    full = os.path.join(scratch, 'rocq', f)
    src = open(full).read()
    n = src.count(mu['old'])
    if n != 1:
        return mu, None, '!! %d old text occurs %d times: %s | %s' % (idx, n, mu['definition'], mu['edit'])
    open(full, 'w').write(src.replace(mu['old'], mu['new']))
    affected = {f}
    admitted, failed = [], []
    for g in files:
        if g != f and not (set(d.get(g, [])) & affected):
            continue
        affected.add(g)
        if mu.get('focus') and g != f:
            focus(scratch, g, mu['focus'])
        while True:
            rc, out, err = compile_(scratch, g)
            if rc == 0:
                break
            # the last File line before Error
            ms = re.findall(r'File "\./?([^"]+)", line (\d+), characters', err)
            name = admit_at(scratch, g, int(ms[-1][1])) if ms else None
            if name is None:
                return mu, None, '!! %d invalid mutant %s | %s %s %s' % (idx, mu['definition'], mu['edit'], g, err[-600:])
            admitted.append(name)
            if re.match(r'C\d+_', name):
                failed.append(name)
        # property theorems resting on admitted lemmas
        cur = open(os.path.join(scratch, 'rocq', g)).read()
        thms = re.findall(r'^Print Assumptions (\w+)\.', cur, re.M)
        blocks = re.split(r'(?=^Closed under the global context|^Axioms:)', out, flags=re.M)
        blocks = [b for b in blocks if b.startswith(('Closed', 'Axioms:'))]
        for t, b in zip(thms, blocks):
            if any(re.search(r'\b%s\b' % re.escape(a), b) for a in admitted) and t not in failed:
                failed.append(t)
    failed = [t for t in failed if re.match(r'C\d+_', t)]
    verdict = 'killed' if failed else 'SURVIVED'
    return mu, failed, '%s %d | %s | %s | %s | lemmas %s' % (verdict, idx, mu['definition'], mu['edit'], failed, admitted)


def run(jobs, log, area, part):
    killed = total = 0
    records = []
    with multiprocessing.Pool(2) as pool:
        for mu, failed, text in pool.imap(run_one, jobs):
            print(text)
            sys.stdout.flush()
            if failed is None:
                continue
            total += 1
            killed += bool(failed)
            rec = dict(definition=mu['definition'], edit=mu['edit'], breaks=mu['breaks'],
                       theorems_failed=failed, theorems_tightened=mu.get('tightened', []))
            if mu.get('note'):
                rec['note'] = mu['note']
            records.append(json.dumps(rec) + '\n')
    with open('/tmp/mut_%s%s.jsonl' % (area, '_part' if part else ''), 'w') as fh:
        fh.writelines(records)
    if log:
        with open(os.path.join(ROOT, 'seeded', 'LOG.jsonl'), 'a') as fh:
            fh.writelines(records)
    print(killed, 'of', total, 'killed')
    shutil.rmtree(SCRATCH, ignore_errors=True)


if __name__ == '__main__':
    ns = {}
    sys.path.insert(0, os.path.join(ROOT, 'tools'))
    exec(open(sys.argv[1]).read(), ns)
    jobs = list(enumerate(ns['MUTANTS']))
    only = [int(a) for a in sys.argv[2:] if a.isdigit()]
    if only:
        jobs = [j for j in jobs if j[0] in only]
    run(jobs, '--log' in sys.argv, os.path.basename(sys.argv[1])[:-3], bool(only))
