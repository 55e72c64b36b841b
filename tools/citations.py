#!/usr/bin/env python3
"""List the model definitions (M_*.v) whose comment does not cite a file and lines in /repo.

A definition's comment is the one that ends on the line before it (blank lines allowed
between two comments but not between comment and definition), or one on its own first line."""
import re, glob, os, sys
here = os.path.join(os.path.dirname(os.path.abspath(__file__)), '..', 'rocq', 'theories')
cite = re.compile(r'[A-Za-z_0-9./]+\.(py|sh|json|md|toml):\d+|[A-Za-z_]+\.json')
rng = re.compile(r'([A-Za-z_0-9./]+\.(?:py|sh)):([0-9]+(?:-[0-9]+)?(?:,[0-9]+(?:-[0-9]+)?)*)')
bad = 0
lens = {}
for root, _, fs in os.walk('/repo'):
    for f in fs:
        if f.endswith(('.py', '.sh')):
            lens.setdefault(f, 0)
            lens[f] = max(lens[f], len(open(os.path.join(root, f)).read().split('\n')))
total = 0
for f in sorted(glob.glob(os.path.join(here, 'M_*.v'))):
    L = open(f).read().split('\n')
    for i, l in enumerate(L):
        if not re.match(r'\s*(Definition|Fixpoint|Record|Inductive)\b', l):
            continue
        total += 1
        text = l if '(*' in l else ''
        j = i - 1
        if j >= 0 and L[j].rstrip().endswith('*)'):
            while j >= 0:
                text = L[j] + '\n' + text
                if '(*' in L[j]:
                    break
                j -= 1
        if not cite.search(text):
            bad += 1
            print(f'{os.path.basename(f)}:{i+1}: {l.strip()[:90]}')
        for m in rng.finditer(text):
            n = os.path.basename(m.group(1))
            for x in re.findall(r'\d+', m.group(2)):
                if n not in lens or int(x) > lens[n]:
                    print('bad range', os.path.basename(f), i + 1, m.group(0))
print(f'{total} definitions, {bad} without a citation')
sys.exit(bad != 0)
