#!/usr/bin/env python3
"""Append to each Prop*.v file one `Print Assumptions` for each of its theorems."""
import re, glob
for path in sorted(glob.glob('/verif/rocq/theories/Prop*.v')):
    s = open(path).read()
    s = re.sub(r'\n(Print Assumptions [\w\']+\.\n)+\Z', '\n', s)
    s = s.rstrip('\n') + '\n'
    names = re.findall(r'^ *Theorem ([\w\']+)', s, re.M)
    assert len(names) == len(set(names)), path
    s += '\n' + ''.join(f'Print Assumptions {n}.\n' for n in names)
    if s != open(path).read():
        open(path, 'w').write(s)
        print('updated', path)
