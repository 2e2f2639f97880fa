#!/usr/bin/env python3
"""Fill the generated parts of DESIGN.md: the files each model follows, and the findings."""
import glob, os, re
root = os.path.dirname(os.path.dirname(os.path.abspath(__file__)))
rows = ['| model | follows |', '|-------|---------|']
for f in sorted(glob.glob(root + '/rocq/theories/Model/*.v')):
    names = sorted(set(re.findall(r'\b[a-z_0-9]+\.(?:cpp|h)\b', open(f).read())))
    rows.append('| %s | %s |' % (os.path.basename(f), ', '.join(names) or '(C++ standard library)'))
notes = []
claims = [l.rstrip('\n').split(' | ', 2) for l in open(root + '/tools/claims.txt') if ' | ' in l]
for c, status, note in sorted(claims):
    if 'efuted' in note or 'inding' in note:
        notes.append('* **%s** (%s): %s' % (c, status, note))
s = open(root + '/DESIGN.md').read()
def fill(s, mark, body):
    pat = re.compile(r'<!-- %s -->.*?(?=\n\n[A-Z#])' % mark, re.S)
    return pat.sub(lambda m: '<!-- %s -->\n\n%s' % (mark, body), s, 1)
s = fill(s, 'models', '\n'.join(rows))
s = fill(s, 'findings', '\n'.join(notes))
open(root + '/DESIGN.md', 'w').write(s)
