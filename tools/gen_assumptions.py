#!/usr/bin/env python3
"""Write the section "Print Assumptions" of DESIGN.md: theorems of the Properties files
grouped by the axioms they depend on.  Run after a full build of rocq/."""
import os, re, subprocess
R = os.path.dirname(os.path.abspath(__file__)) + '/..'
T = R + '/rocq/theories'
groups = {}
order = [l.strip() for l in open(R + '/rocq/_CoqProject') if l.startswith('theories/Properties')]
for f in order:
    mod = f[len('theories/'):-2]
    ths = re.findall(r'^Theorem\s+(\w+)', open(R + '/rocq/' + f).read(), re.M)
    probe = '/tmp/assumptions_probe.v'
    with open(probe, 'w') as g:
        g.write(f'From Verif Require Import {mod}.\n')
        for t in ths:
            g.write(f'Goal True. idtac "@@{t}". Abort.\nPrint Assumptions {mod}.{t}.\n')
    out = subprocess.run(['coqc', '-Q', T, 'Verif', probe], stdout=subprocess.PIPE,
                         stderr=subprocess.STDOUT, text=True).stdout
    for c in out.split('@@')[1:]:
        t, _, body = c.partition('\n')
        ax = sorted(set(re.findall(r"^([A-Za-z][\w.']*)\s*(?::|$)", body.replace('Axioms:', ''), re.M)))
        ax = [a for a in ax if not a.startswith('Closed')]
        groups.setdefault(tuple(ax), []).append(t.strip())
lines = []
for ax, ths in sorted(groups.items(), key=lambda x: len(x[0])):
    lines.append(('**No axioms (closed under the global context)**' if not ax else
                  '**' + ', '.join('`%s`' % a for a in ax) + '**') + f' ({len(ths)} theorems):')
    lines.append('')
    lines.append(', '.join(ths) + '.')
    lines.append('')
B, E = '<!-- assumptions: begin -->', '<!-- assumptions: end -->'
p = R + '/DESIGN.md'
s = open(p).read()
i, j = s.index(B) + len(B), s.index(E)
open(p, 'w').write(s[:i] + '\n' + '\n'.join(lines) + s[j:])
print({len(a): len(t) for a, t in groups.items()})
