#!/usr/bin/env python3
"""Writes rocq/theories/Audit.v: Print Assumptions over every property theorem, file by file."""
import os, re
D = os.path.join(os.path.dirname(__file__), '..', 'rocq', 'theories')
files = sorted(f[:-2] for f in os.listdir(D) if f.startswith('Props') and f.endswith('.v'))
out = ['(** The assumptions of every property theorem (generated by tools/audit.py). *)']
for f in files:
    out.append(f'From Verif Require {f}.')
for f in files:
    names = re.findall(r'^Theorem (C\d\d\w*)', open(os.path.join(D, f + '.v')).read(), re.M)
    if not names:
        continue
    out.append(f'\n(** {f}.v *)')
    # tuples of bounded width keep the types small
    for i in range(0, len(names), 12):
        part = ', '.join(f'@{f}.{n}' for n in names[i:i + 12])
        out.append(f'Definition {f}_{i // 12} := ({part}).\nPrint Assumptions {f}_{i // 12}.')
open(os.path.join(D, 'Audit.v'), 'w').write('\n'.join(out) + '\n')
