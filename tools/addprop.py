#!/usr/bin/env python3
"""addprop.py FILE: append properties (JSON list with fields of properties.jsonl + 'row': [modelled, proof]) ."""
import json,sys,os
os.chdir(os.path.join(os.path.dirname(__file__),'..'))
new=json.load(open(sys.argv[1]))
L=[json.loads(l) for l in open('properties.jsonl')]
R=json.load(open('tools/design_rows.json'))
for p in new:
    R[p['id']]=p.pop('row')
    L=[q for q in L if q['id']!=p['id']]+[p]
L.sort(key=lambda p:p['id'])
open('properties.jsonl','w').write(''.join(json.dumps(p,ensure_ascii=False)+'\n' for p in L))
json.dump(R,open('tools/design_rows.json','w'),indent=1)
