#!/usr/bin/env python3
"""Write MANIFEST.json from the theorem names of rocq/theories/Prop*.v and the notes of tools/notes.json
({"C02": {"status": "partial", "note": "..."}}; the default status is "proved" when a property has theorems)."""
import re,glob,os,json
here=os.path.dirname(os.path.abspath(__file__)); root=os.path.join(here,'..')
thms={}
for f in sorted(glob.glob(os.path.join(root,'rocq/theories/Prop*.v'))):
    for n in re.findall(r'^Theorem ((C\d+)_\w+)',open(f).read(),re.M): thms.setdefault(n[1],[]).append(n[0])
notes=json.load(open(os.path.join(here,'notes.json'))) if os.path.exists(os.path.join(here,'notes.json')) else {}
claims=[]
for l in open(os.path.join(root,'properties.jsonl')):
    p=json.loads(l)['id']; t=thms.get(p,[]); n=notes.get(p,{})
    st=n.get('status','proved' if t else None)
    if st is None: continue
    ref=[x for x in t if x.endswith('_refuted')]
    note=n.get('note','')
    if not note and ref: note='Theorems with suffix _refuted disprove a documented or plausible stronger claim; the others give what holds.'
    claims.append({'property':p,'status':st,'theorems':t,'note':note})
json.dump({'claims':claims},open(os.path.join(root,'MANIFEST.json'),'w'),indent=1)
print(len(claims),'claims',sum(len(c['theorems']) for c in claims),'theorems')
