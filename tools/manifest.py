# regenerate MANIFEST.json from theorem names in Properties/*.v plus notes
import re,json,glob,collections
props=[json.loads(l) for l in open('/verif/properties.jsonl')]
th=collections.OrderedDict()
for f in sorted(glob.glob('/verif/rocq/theories/Properties/*.v')):
    t=open(f).read()
    t=re.sub(r'\(\*.*?\*\)','',t,flags=re.S)
    for m in re.finditer(r'^(?:Theorem|Lemma|Corollary)\s+((C\d\d)_\w+)',t,re.M):
        th.setdefault(m.group(2),[]).append(m.group(1))
notes=json.load(open('/verif/notes.json'))
claims=[]
for p in props:
    i=p['id']
    if i in th:
        n=notes.get(i,{})
        st=n.get('status') or ('partial' if any(x.endswith('_partial') for x in th[i]) else 'proved')
        claims.append({"property":i,"status":st,"theorems":th[i],"note":n.get('note','')})
json.dump({"claims":claims},open('/verif/MANIFEST.json','w'),indent=1)
print(len(claims),'of',len(props), 'missing', [p['id'] for p in props if p['id'] not in th])
