#!/usr/bin/env python3
"""Print, grouped by axioms, what Print Assumptions says of each theorem in
MANIFEST.json (DESIGN.md, section 5).  Run in /verif/rocq after a build."""
import json, re, glob, subprocess, tempfile, os
m = json.load(open('/verif/MANIFEST.json'))
mods = sorted(re.search(r'T_\w+', f).group() for f in glob.glob('theories/T_*.v'))
where = {}
for md in mods:
    for t in re.findall(r'^\s*Theorem\s+(\w+)', open(f'theories/{md}.v').read(), re.M): where[t] = md
out = 'From Coq Require Import String.\nFrom Verif Require ' + ' '.join(mods) + '.\n'
for t in dict.fromkeys(t for c in m['claims'] for t in c['theorems']):
    out += f'Eval compute in "BEGIN {t}"%string.\nPrint Assumptions Verif.{where[t]}.{t}.\n'
d = tempfile.mkdtemp()
open(d + '/pa.v', 'w').write(out)
r = subprocess.run(['coqc', '-q', '-Q', 'theories', 'Verif', d + '/pa.v'], capture_output=True, text=True)
assert r.returncode == 0, r.stderr
cur, ax = None, {}
for l in r.stdout.splitlines():
    g = re.match(r'\s*= "BEGIN (\w+)"', l)
    if g: cur = g.group(1); ax[cur] = set(); continue
    g = re.match(r"^([A-Za-z_][\w.']*)( :|$)", l)
    if g and cur and g.group(1) not in ('Axioms',): ax[cur].add(g.group(1))
groups = {}
for t, s in ax.items(): groups.setdefault(tuple(sorted(s)), []).append(t)
for g, ts in sorted(groups.items(), key=lambda x: len(x[0])):
    print('* ' + (', '.join(f'`{a}`' for a in g) if g else 'Closed under the global context') + ':')
    print('  ' + ', '.join(ts))
