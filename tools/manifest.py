#!/usr/bin/env python3
"""Regenerate MANIFEST.json from the Theorem names Cnn_* in rocq/theories/Prop_*.v."""
import re,glob,json,os
root=os.path.join(os.path.dirname(__file__),'..')
thms={}
for f in sorted(glob.glob(root+'/rocq/theories/Prop_*.v')):
    for n in re.findall(r'^Theorem (C\d\d+_\w+)',open(f).read(),re.M):
        thms.setdefault(n.split('_')[0],[]).append(n)
notes=json.load(open(root+'/tools/manifest_notes.json'))
claims=[]
for l in open(root+'/properties.jsonl'):
    p=json.loads(l)['id']
    n=notes.get(p,{})
    if p not in thms: print('no theorem for',p); continue
    claims.append({'property':p,'status':n.get('status','proved'),'theorems':thms[p],'note':n.get('note','')})
for p in thms:
    if p not in [c['property'] for c in claims]: print('no property',p)
json.dump({'claims':claims},open(root+'/MANIFEST.json','w'),indent=1)
