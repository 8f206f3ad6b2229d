#!/usr/bin/env python3
"""Writes ASSUMPTIONS.md: what Print Assumptions lists for each theorem of MANIFEST.json.
Run after a build in rocq/ (uses the compiled files)."""
import json, glob, re, subprocess, tempfile, collections, os
R = os.path.dirname(os.path.dirname(os.path.abspath(__file__)))
m = json.load(open(R + '/MANIFEST.json'))
th = [t for c in m['claims'] for t in c['theorems']]
loc = {}
for f in glob.glob(R + '/rocq/theories/*.v'):
    for n in re.findall(r'^\s*(?:Theorem|Lemma|Example|Corollary)\s+(\w+)', open(f).read(), re.M):
        loc.setdefault(n, os.path.basename(f)[:-2])
out = ''.join('From Verif Require %s.\n' % x for x in sorted({loc[t] for t in th}))
for t in th:
    out += 'Goal True. idtac "@@ %s". exact I. Qed.\nPrint Assumptions Verif.%s.%s.\n' % (t, loc[t], t)
d = tempfile.mkdtemp(); open(d + '/pa.v', 'w').write(out)
s = subprocess.run(['coqc', '-Q', R + '/rocq/theories', 'Verif', d + '/pa.v'], capture_output=True, text=True).stdout
g = collections.OrderedDict()
n = 0
for b in s.split('@@ ')[1:]:
    name, _, r = b.partition('\n'); n += 1
    ax = tuple(a for a in sorted(re.findall(r'^([\w.]+)\s*(?::|$)', r, re.M)) if a not in ('Axioms', 'Closed'))
    g.setdefault(ax, []).append(name)
assert n == len(th), (n, len(th))
with open(R + '/ASSUMPTIONS.md', 'w') as f:
    f.write('# Print Assumptions for the %d theorems of MANIFEST.json\n\nGenerated by tools/assumptions.py.\n' % n)
    for ax, l in sorted(g.items(), key=lambda kv: len(kv[0])):
        f.write('\n## ' + ('Closed under the global context' if not ax else ', '.join('`%s`' % a for a in ax)) + ' (%d theorems)\n\n' % len(l))
        f.write(', '.join(l) + '\n')
