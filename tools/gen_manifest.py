#!/usr/bin/env python3
"""Write MANIFEST.json: theorem names are read from rocq/theories/Prop_*.v, status and
notes from tools/status.json."""
import glob, json, re, os
root = os.path.dirname(os.path.dirname(os.path.abspath(__file__)))
names = {}
for f in sorted(glob.glob(root + '/rocq/theories/Prop_*.v')):
    for n in re.findall(r'^Theorem (\w+)', open(f).read(), re.M):
        names.setdefault(n.split('_')[0], []).append(n)
status = json.load(open(root + '/tools/status.json'))
ids = [json.loads(l)['id'] for l in open(root + '/properties.jsonl')]
claims = []
for i in ids:
    th = names.pop(i, [])
    if i in status:
        st, note = status[i]
        if not th:
            print('no theorem for', i)
        claims.append(dict(property=i, status=st, theorems=th, note=note))
    elif th:
        print('no status for', i)
if names:
    print('unknown ids', names)
json.dump(dict(claims=claims), open(root + '/MANIFEST.json', 'w'), indent=1)
