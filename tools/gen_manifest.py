#!/usr/bin/env python3
"""Builds MANIFEST.json from the theorem names Cnn_* in rocq/theories/P_*.v and notes below."""
import json,re,glob,os
os.chdir(os.path.join(os.path.dirname(__file__),'..'))
props=[json.loads(l) for l in open('properties.jsonl')]
ths={}
for f in sorted(glob.glob('rocq/theories/P_*.v')):
    for m in re.finditer(r'^Theorem (C(\d\d)_\w+)',open(f).read(),re.M):
        ths.setdefault('C'+m.group(2),[]).append(m.group(1))
notes={}
nf='tools/notes.json'
if os.path.exists(nf): notes=json.load(open(nf))
claims=[]
for p in props:
    t=ths.get(p['id'],[])
    if not t: continue
    n=notes.get(p['id'],{})
    st=n.get('status') or ('partial' if any(x.endswith('_partial') for x in t) else 'proved')
    claims.append({'property':p['id'],'status':st,'theorems':t,'note':n.get('note','')})
json.dump({'claims':claims},open('MANIFEST.json','w'),indent=1)
print(len(claims),'claims; missing',[p['id'] for p in props if p['id'] not in ths])
