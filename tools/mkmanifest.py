#!/usr/bin/env python3
"""Regenerate MANIFEST.json from properties.jsonl, tools/status.json and the theorems in rocq/theories/Prop*.v."""
import json,re,glob,os
base=os.path.join(os.path.dirname(os.path.abspath(__file__)),'..')
thms={}
for f in sorted(glob.glob(base+'/rocq/theories/Prop*.v')):
    for n in re.findall(r'^Theorem (C\d\d\w*)',open(f).read(),re.M):
        thms.setdefault(n[:3],[]).append(n)
st=json.load(open(base+'/tools/status.json'))
claims=[]
for l in open(base+'/properties.jsonl'):
    i=json.loads(l)['id']
    if i in thms:
        s,n=st.get(i,['proved',''])
        claims.append({"property":i,"status":s,"theorems":thms[i],"note":n})
json.dump({"claims":claims},open(base+'/MANIFEST.json','w'),indent=1)
print(len(claims),'claims', [i for i in thms if i not in [c['property'] for c in claims]])
