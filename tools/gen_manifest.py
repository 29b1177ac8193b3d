#!/usr/bin/env python3
"""Regenerates MANIFEST.json from the theorem names in rocq/theories/Prop_*.v and tools/notes.json."""
import re,glob,json,os
root=os.path.dirname(os.path.dirname(os.path.abspath(__file__)))
notes=json.load(open(root+'/tools/notes.json'))
th={}
for f in sorted(glob.glob(root+'/rocq/theories/Prop_*.v')):
    for m in re.finditer(r'^Theorem (C\d\d\w*)',open(f).read(),re.M):
        th.setdefault(m.group(1)[:3],[]).append(m.group(1))
claims=[]
for line in open(root+'/properties.jsonl'):
    pid=json.loads(line)['id']
    t=th.get(pid,[])
    n=notes.get(pid,{})
    if not t and n.get('status')!='not_applicable': continue
    st=n.get('status') or ('partial' if any(x.endswith('_partial') or x.endswith('_refuted') for x in t) else 'proved')
    claims.append(dict(property=pid,status=st,theorems=t,note=n.get('note','')))
json.dump({"claims":claims},open(root+'/MANIFEST.json','w'),indent=1)
print(len(claims),'claims',sum(len(c['theorems']) for c in claims),'theorems')
