"""Copies the equation files shipped with the package into Coq: one definition per file, a list of
its lines as string literals, nothing else.  Usage: python3 tools/eqn_files.py /repo rocq/theories"""
import os
import sys

repo, out = sys.argv[1:]
src = os.path.join(repo, 'coniii', 'ising_eqn')
groups = {}
for f in sorted(os.listdir(src)):
    if f.startswith('ising_eqn_') and f.endswith('.py'):
        n = int(f[len('ising_eqn_'):].split('.')[0].split('_')[0])
        key = 'Small' if n <= 6 else str(n) + ('sym' if 'sym' in f else '')
        groups.setdefault(key, []).append(f)
CHUNK = 100
for key, files in groups.items():
    with open(os.path.join(out, 'D_Eqn%s.v' % key), 'w') as o:
        o.write('(** * Verbatim text of equation files shipped with the package: the lines, without the\n'
                '    final newline characters.  Written by tools/eqn_files.py. *)\n'
                'From Coq Require Import String List.\nImport ListNotations.\nLocal Open Scope string_scope.\n')
        for f in files:
            text = open(os.path.join(src, f)).read()
            assert text.endswith('\n') and text.isascii() and '\r' not in text and '\t' not in text
            lines = text[:-1].split('\n')
            name = 'eqn' + f[len('ising_eqn'):-3]
            o.write('\n(** coniii/ising_eqn/%s:1-%d. *)\n' % (f, len(lines)))
            parts = []
            for i in range(0, len(lines), CHUNK):
                parts.append('%s_%d' % (name, i // CHUNK))
                o.write('Definition %s : list string := [\n' % parts[-1]
                        + ';\n'.join('"' + l.replace('"', '""') + '"' for l in lines[i:i + CHUNK]) + '].\n')
            o.write('Definition %s : list string := List.concat [%s].\n' % (name, '; '.join(parts)))
