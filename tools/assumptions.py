#!/usr/bin/env python3
"""Regenerate the Print Assumptions lines at the end of every file in rocq/theories/Props."""
import re, glob, os
root = os.path.dirname(os.path.dirname(os.path.abspath(__file__)))
for f in sorted(glob.glob(root + '/rocq/theories/Props/*.v')):
    s = open(f).read()
    body = re.sub(r'^Print Assumptions \w+\.\n', '', s, flags=re.M).rstrip() + '\n'
    names = re.findall(r'^Theorem (\w+)', body, re.M)
    new = body + '\n' + ''.join('Print Assumptions %s.\n' % n for n in names)
    if new != s:
        open(f, 'w').write(new)
