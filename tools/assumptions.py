#!/usr/bin/env python3
"""Write ASSUMPTIONS.md: the axioms of every property theorem, as printed by Coq.

Run in /verif after a build: tools/assumptions.py
"""
import glob, os, re, subprocess, tempfile
thy = 'rocq/theories'
mods, names = [], []
for f in sorted(glob.glob(thy + '/P_*.v')):
    m = os.path.basename(f)[:-2]
    mods.append(m)
    names += [(m, n) for n in re.findall(r'^Theorem (\w+)', open(f).read(), re.M)]
src = ''.join('From Verif Require %s.\n' % m for m in mods)
for m, n in names:
    src += 'Redirect "%s" Print Assumptions %s.%s.\n' % (n, m, n)
with tempfile.TemporaryDirectory() as d:
    p = os.path.join(d, 'ask.v')
    open(p, 'w').write(src)
    subprocess.run(['coqc', '-q', '-Q', os.path.abspath(thy), 'Verif', 'ask.v'], cwd=d, check=True)
    groups = {}
    for m, n in names:
        t = open(os.path.join(d, n + '.out')).read()
        ax = tuple(sorted(set(re.findall(r'^([A-Za-z_][\w.]*)\s*:', t, re.M)) - {'Axioms'}))
        groups.setdefault(ax, []).append(n)
out = '# Axioms per theorem\n\nGenerated by `tools/assumptions.py` from `Print Assumptions`.\n'
for ax, ns in sorted(groups.items(), key=lambda g: (len(g[0]), g[0])):
    out += '\n## ' + (', '.join('`%s`' % a for a in ax) if ax else 'Closed under the global context') + '\n\n'
    out += '\n'.join('* ' + n for n in ns) + '\n'
open('ASSUMPTIONS.md', 'w').write(out)
print(len(names), 'theorems,', len(groups), 'groups')
