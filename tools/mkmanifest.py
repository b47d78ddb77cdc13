#!/usr/bin/env python3
"""Write MANIFEST.json from the theorem names in rocq/theories/Props*.v and the
notes below, and refresh the file list of rocq/_CoqProject."""
import glob, json, os, re
root = os.path.dirname(os.path.dirname(os.path.abspath(__file__)))
th = os.path.join(root, 'rocq', 'theories')
exec(open(os.path.join(root, 'tools', 'notes.py')).read())   # NOTES, PARTIAL, NA
names = {}
for f in sorted(glob.glob(th + '/Props*.v')):
    for n in re.findall(r'^Theorem\s+(C\d+_\w+)', open(f).read(), re.M):
        names.setdefault(n.split('_')[0], []).append(n)
claims = []
for l in open(os.path.join(root, 'properties.jsonl')):
    i = json.loads(l)['id']
    t = names.get(i, [])
    if i in NA:
        claims.append(dict(property=i, status='not_applicable', theorems=[], note=NA[i]))
    elif t:
        st = 'partial' if i in PARTIAL else 'proved'
        claims.append(dict(property=i, status=st, theorems=t,
                           note=PARTIAL.get(i) or NOTES.get(i, '')))
    else:
        print('no theorem yet:', i)
json.dump(dict(claims=claims), open(os.path.join(root, 'MANIFEST.json'), 'w'), indent=1)
with open(os.path.join(root, 'rocq', '_CoqProject'), 'w') as o:
    o.write('-Q theories Verif\n')
    for f in sorted(os.listdir(th)):
        if f.endswith('.v'):
            o.write('theories/%s\n' % f)
