#!/usr/bin/env python3
"""Regenerate the property table of DESIGN.md (section 2) from properties.jsonl, MANIFEST.json and tools/design_rows.json."""
import json,re,os
os.chdir(os.path.join(os.path.dirname(__file__),'..'))
rows=json.load(open('tools/design_rows.json'))
M={c['property']:c for c in json.load(open('MANIFEST.json'))['claims']}
out=['| property | status | modelled by | statement and proof |','|---|---|---|---|']
for l in open('properties.jsonl'):
    p=json.loads(l); i=p['id']; a,b=rows[i]
    out.append(f"| {i} {p['title']} | {M[i]['status']} | {a} | {b} |")
s=open('DESIGN.md').read()
s=re.sub(r'<!-- table -->.*?<!-- end -->',lambda m:'<!-- table -->\n'+'\n'.join(out)+'\n<!-- end -->',s,flags=re.S)
open('DESIGN.md','w').write(s)
