#!/usr/bin/env python3
"""Write MANIFEST.json from the theorem names in rocq/theories/Props/*.v and the notes below."""
import glob, json, re
root = '/verif'
notes = json.load(open(root + '/tools/notes.json'))
thms = {}
for f in sorted(glob.glob(root + '/rocq/theories/Props/*.v')):
    for n in re.findall(r'^Theorem (C\d\d\d?_\w+)', open(f).read(), re.M):
        thms.setdefault(n.split('_')[0], []).append(n)
claims = []
for l in open(root + '/properties.jsonl'):
    i = json.loads(l)['id']
    n = notes.get(i, {})
    ts = thms.get(i, [])
    if not ts and 'status' not in n:
        n = {'status': 'partial', 'note': 'not yet modelled'}
    claims.append({'property': i, 'status': n.get('status', 'proved'), 'theorems': ts, 'note': n.get('note', '')})
json.dump({'claims': claims}, open(root + '/MANIFEST.json', 'w'), indent=1)
