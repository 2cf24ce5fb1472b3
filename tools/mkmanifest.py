#!/usr/bin/env python3
"""Writes MANIFEST.json from the theorem names in rocq/theories/Prop_*.v (Cnn_...) and the notes below."""
import re,glob,json,os
notes=json.load(open('/verif/tools/notes.json'))
thms={}
for f in sorted(glob.glob('/verif/rocq/theories/Prop_*.v')):
    for m in re.finditer(r'^Theorem ((C\d\d)_\w+)',open(f).read(),re.M):
        thms.setdefault(m.group(2),[]).append(m.group(1))
props=[json.loads(l)['id'] for l in open('/verif/properties.jsonl')]
claims=[]
for p in props:
    t=thms.get(p,[])
    n=notes.get(p,{})
    st=n.get('status') or ('partial' if (not t or any(x.endswith('_partial') or x.endswith('_refuted') for x in t)) else 'proved')
    claims.append({'property':p,'status':st,'theorems':t,'note':n.get('note','not yet proved' if not t else '')})
json.dump({'claims':claims},open('/verif/MANIFEST.json','w'),indent=1)
print({s:sum(c['status']==s for c in claims) for s in ('proved','partial','not_applicable')}, [c['property'] for c in claims if not c['theorems']])
