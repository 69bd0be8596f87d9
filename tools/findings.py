#!/usr/bin/env python3
"""Rewrite the list of refuted claims in DESIGN.md from the comments before the
theorems whose name ends in _refuted."""
import re, glob, pathlib
root = pathlib.Path(__file__).resolve().parent.parent
OVERRIDE = {
 'C04_alphabet_refuted': 'base_repr for bases 11 to 36: the alphabet is not 0-9A-Z in order (digits 18 and 19 are wrong).',
 'C47_unsorted_subclusters_requested_refuted': 'deltaS of an unsorted cluster asks for unsorted subclusters, which hit the case above.',
 'C57_matrix_refuted': 'WolffIsing documents couplings "as vector or matrix"; a matrix is rejected for every n except 0 and 3.',
 'C58_one_state_refuted': 'The estimate for a single state raises.',
 'C72_susceptibility_refuted': 'susc at h=0 is off by a factor T from the derivative of -m in h.',
 'C74_covariance_matrix_refuted': 'Off the diagonal coocSampleCovariance holds E[pq](1-E[pq]), not the covariance.',
}
items = []
for f in sorted(glob.glob(str(root / 'rocq/theories/Props_*.v'))):
    s = open(f).read()
    for m in re.finditer(r'Theorem (C\d+_\w*refuted)\b', s):
        pre, c = s[:m.start()].rstrip(), ''
        if pre.endswith('*)'):
            c = re.sub(r'\s+', ' ', pre[pre.rindex('(**') + 3:-2].strip()).lstrip('. ')
        items.append((m.group(1), OVERRIDE.get(m.group(1), c)))
        if not items[-1][1]: print('no comment:', m.group(1))
items.sort()
d = root / 'DESIGN.md'; s = d.read_text()
a, b = '<!-- findings -->', '<!-- /findings -->'
i, j = s.index(a) + len(a), s.index(b)
d.write_text(s[:i] + '\n' + ''.join(f'* `{n}`: {c}\n' for n, c in items) + s[j:])
