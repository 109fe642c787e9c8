#!/usr/bin/env python3
"""Rebuild MANIFEST.json: theorem names come from rocq/theories/Properties/Cxx*.v,
status and notes from tools/status.json."""
import json, re, glob, os
here = os.path.dirname(os.path.abspath(__file__))
root = os.path.dirname(here)
status = json.load(open(os.path.join(here, 'status.json')))
claims = []
for line in open(os.path.join(root, 'properties.jsonl')):
    pid = json.loads(line)['id']
    if pid not in status: continue
    ths = []
    for f in sorted(glob.glob(os.path.join(root, 'rocq/theories/Properties/%s*.v' % pid))):
        ths += re.findall(r'^Theorem\s+(\w+)', open(f).read(), re.M)
    st, note = status[pid]
    assert ths or st == 'not_applicable', pid
    claims.append({'property': pid, 'status': st, 'theorems': ths, 'note': note})
json.dump({'claims': claims}, open(os.path.join(root, 'MANIFEST.json'), 'w'), indent=1)
print(len(claims), 'claims', sum(len(c['theorems']) for c in claims), 'theorems')
