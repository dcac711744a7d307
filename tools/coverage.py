#!/usr/bin/env python3
"""List the functions of a C file and whether a comment of the model cites lines of their bodies.
Usage: coverage.py [FILE.c ...]   (default: asap.c astil.c asapconv.c)"""
import re, sys, glob
files = sys.argv[1:] or ['asap.c', 'astil.c', 'asapconv.c']
cites = {}
for p in glob.glob('/verif/rocq/theories/*.v'):
    text = open(p).read()
    for m in re.finditer(r'(\w+\.c):((?:\d+(?:-\d+)?)(?:,\s+\d+(?:-\d+)?)*)', text):
        for r in re.findall(r'(\d+)(?:-(\d+))?', m.group(2)):
            a = int(r[0]); b = int(r[1] or r[0])
            cites.setdefault(m.group(1), set()).update(range(a, b + 1))
for f in files:
    lines = open('/repo/' + f, errors='replace').read().split('\n')
    funcs = []
    i = 0
    while i < len(lines):
        if lines[i] == '{' and i > 0 and re.search(r'\)\s*$', lines[i - 1]):
            m = re.search(r'([\w]+)\s*\(', lines[i - 1])
            j = i
            while lines[j] != '}': j += 1
            funcs.append((m.group(1), i, j + 1))
            i = j
        i += 1
    c = cites.get(f, set())
    done = [x for x in funcs if any(k in c for k in range(x[1] + 1, x[2]))]
    print('%s: %d functions, %d cited by the model' % (f, len(funcs), len(done)))
    print('  not cited: ' + ', '.join(x[0] for x in funcs if x not in done))
