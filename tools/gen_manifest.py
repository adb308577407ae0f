#!/usr/bin/env python3
"""MANIFEST.json from theories/Props.v and properties.jsonl."""
import re, json, os
os.chdir(os.path.join(os.path.dirname(__file__), '..'))
props = open('rocq/theories/Props.v').read()
notes = json.load(open('tools/notes.json')) if os.path.exists('tools/notes.json') else {}
claims = []
for l in open('properties.jsonl'):
    i = json.loads(l)['id']
    th = re.findall(r'^Theorem (%s_\w+)' % i, props, re.M)
    if not th: continue
    n = notes.get(i, {})
    st = n.get('status') or ('partial' if all(t.endswith('_partial') or t.endswith('_refuted') for t in th) else 'proved')
    claims.append({"property": i, "status": st, "theorems": th, "note": n.get('note', '')})
json.dump({"claims": claims}, open('MANIFEST.json', 'w'), indent=1)
print(len(claims), 'claims')
