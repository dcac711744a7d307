#!/usr/bin/env python3
# Mutation testing of the theorems.  Usage: mutate.py MUTATIONS.json INDEX...
# Each mutation {"definition","file","old","new","claim","targets"} is applied to a scratch copy of rocq/ (never to /verif).
# Proofs that no longer check are replaced by Admitted in the copy, one by one, until everything builds; the property
# theorems whose Print Assumptions then mention an admitted lemma are the ones that failed.
# "targets" names the Properties files to check (["Info", "Sap"] for PropertiesInfo.v and PropertiesSap.v).
import sys, json, os, re, shutil, subprocess, time
SRC = '/verif/rocq'
muts = json.load(open(sys.argv[1]))
START = re.compile(r'^\s*(?:Local |Global )?(Lemma|Theorem|Example|Corollary|Fact|Definition|Fixpoint|Inductive|Record|Notation|Ltac|Section|End)\s+(\w+)?', re.M)
def log(*a): print(*a, file=sys.stderr, flush=True)
def run(cmd, cwd, timeout):
    try:
        r = subprocess.run(cmd, cwd=cwd, stdout=subprocess.PIPE, stderr=subprocess.STDOUT, timeout=timeout)
        return r.returncode, r.stdout.decode(errors='replace')
    except subprocess.TimeoutExpired as e:
        return 'timeout', (e.stdout or b'').decode(errors='replace')
def admit(path, pos):
    """replace the proof of the lemma containing byte offset pos; returns its name or None"""
    b = open(path, 'rb').read().decode()
    best = None
    for m in START.finditer(b):
        if m.start() <= pos + 1 and m.group(1) in ('Lemma', 'Theorem', 'Example', 'Corollary', 'Fact'): best = m
    if best is None: return None
    p = b.index('Proof', best.start()); q = b.index('Qed.', p)
    if not (best.start() <= pos <= q + 4): return None
    pre = b[best.start():p]
    open(path, 'wb').write((b[:p] + 'Proof. Admitted.' + b[q + 4:]).encode())
    return best.group(2)
def one(k, mu):
    w = f'/tmp/mut/w{k}'
    shutil.rmtree(w, ignore_errors=True)
    subprocess.run(['cp', '-a', SRC, w], check=True)
    path = f"{w}/theories/{mu['file']}"
    t = open(path).read()
    assert t.count(mu['old']) == 1, (mu['definition'], t.count(mu['old']))
    open(path, 'w').write(t.replace(mu['old'], mu['new']))
    subprocess.run(['coq_makefile', '-f', '_CoqProject', '-o', 'Makefile'], cwd=w, stdout=subprocess.DEVNULL)
    # Print Assumptions must be fresh: rebuild every Properties file
    for f in os.listdir(w + '/theories'):
        if f.startswith('Properties') and f.endswith('.vo'): os.remove(f'{w}/theories/{f}')
    admitted, out, t0 = [], '', time.time()
    props = ['Properties' + t for t in mu['targets']]
    goals = [f'theories/{t}.vo' for t in props]
    for rnd in range(60):
        rc, o = run(['make', '-k', '-j2', 'COQC=timeout 500 coqc'] + goals, w, 3000)
        out += o
        if rc == 0: break
        if rc == 'timeout':
            subprocess.run(['pkill', '-f', w]); 
        bad = sorted({f + '.v' for f in re.findall(r'\[Makefile:\d+: (theories/\w+)\.vo\] Error', o)})
        if not bad and rc == 'timeout':
            new = lambda f: os.path.exists(w + '/' + f + 'o') and os.path.getmtime(w + '/' + f + 'o') > t0
            bad = [f for f in re.findall(r'COQC (theories/\w+\.v)', o) if not new(f)]
        if not bad: log('cannot find error', o[-1500:]); return None
        for f in bad:
            for i in range(200):
                rc, o = run(['coqc', '-time', '-Q', 'theories', 'Verif', f], w, 600)
                if rc == 0: out += o; break
                ch = re.findall(r'^Chars (\d+) - (\d+)', o, re.M)
                pos = int(ch[-1][1]) if ch else 0
                n = admit(w + '/' + f, pos)
                if n is None: log('cannot admit', f, pos, o[-600:]); return None
                admitted.append(n)
                log(f'  [{k}] admitted {f[9:]}:{n}')
    failed = []
    for f in [t + '.v' for t in props]:
        t = open(f'{w}/theories/{f}').read()
        names = re.findall(r'^Print Assumptions (\w+)\.', t, re.M)
        rc, o = run(['coqc', '-Q', 'theories', 'Verif', 'theories/' + f], w, 600)
        blocks = re.split(r'^(?=Closed under|Axioms:)', o, flags=re.M)[1:]
        assert len(blocks) == len(names), (f, len(blocks), len(names))
        failed += [n for n, b in zip(names, blocks) if not b.startswith('Closed')]
        failed += [n for n in re.findall(r'^Example (\w+)', t, re.M) if n in admitted]
    shutil.rmtree(w, ignore_errors=True)
    return admitted, failed
for a in sys.argv[2:]:
    mu = muts[int(a)]
    t0 = time.time()
    log('mutation', a, mu['definition'], mu['edit'] if 'edit' in mu else '')
    r = one(int(a), mu)
    rec = {"definition": mu['definition'], "file": mu['file'], "edit": mu.get('edit') or f"{mu['old']} => {mu['new']}", "claim": mu['claim'],
           "lemmas_failed": r[0] if r else None, "theorems_failed": r[1] if r else None, "theorems_tightened": []}
    print(json.dumps(rec), flush=True)
    log('  took', round(time.time() - t0), 's')
