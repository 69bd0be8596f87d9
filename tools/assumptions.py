#!/usr/bin/env python3
"""Ask Coq for the assumptions of every property theorem and rewrite the table in
DESIGN.md between the markers.  Run from a built tree: python3 tools/assumptions.py"""
import re, subprocess, pathlib, collections
root = pathlib.Path(__file__).resolve().parent.parent
rocq = root / 'rocq'
groups = collections.OrderedDict()
cmds, names = [], []
for f in sorted((rocq / 'theories').glob('Props_*.v')):
    ths = re.findall(r'^(?:Theorem|Example)\s+(C\d+_\w+)', f.read_text(), re.M)
    if ths:
        cmds.append(f'From Verif Require Import {f.stem}.')
        for t in ths:
            names.append(t)
            cmds.append(f'Goal True. idtac "@@ {t}". Abort.\nPrint Assumptions {f.stem}.{t}.')
src = '\n'.join(cmds)
tmp = pathlib.Path('/tmp/verif_assumptions.v'); tmp.write_text(src)
out = subprocess.run(['coqtop', '-Q', 'theories', 'Verif', '-batch', '-l', str(tmp)], cwd=rocq, capture_output=True, text=True).stdout
res = {}
for part in out.split('@@ ')[1:]:
    name, body = part.split('\n', 1)
    name = name.split()[0]
    if 'Closed under the global context' in body:
        ax = ()
    else:
        ax = tuple(sorted(set(re.findall(r'^([A-Za-z_][\w.]*)\s*(?::|$)', body, re.M)) - {'Axioms'}))
    res[name] = ax
assert set(res) == set(names), (set(names) - set(res))
by = collections.defaultdict(list)
for n in names:
    by[res[n]].append(n)
lines = []
for ax in sorted(by, key=lambda a: (len(a), a)):
    ths = sorted(by[ax])
    lines.append('* ' + ('no axioms (closed under the global context)' if not ax else ', '.join(f'`{a}`' for a in ax)) + f' — {len(ths)} statements:')
    lines.append('  ' + ', '.join(ths) + '.')
d = root / 'DESIGN.md'
s = d.read_text()
a, b = '<!-- assumptions -->', '<!-- /assumptions -->'
i, j = s.index(a) + len(a), s.index(b)
d.write_text(s[:i] + '\n' + '\n'.join(lines) + '\n' + s[j:])
print({k: len(v) for k, v in by.items()})
