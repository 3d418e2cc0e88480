#!/usr/bin/env python3
"""Collects the property theorems (Cxx_*) of rocq/theories/Properties*.v into MANIFEST.json."""
import re,glob,json,os
root=os.path.dirname(os.path.dirname(os.path.abspath(__file__)))
exec(open(os.path.join(root,'tools','notes.py')).read())  # NOTES, STATUS
th={}
for f in sorted(glob.glob(root+'/rocq/theories/Properties*.v')):
    for m in re.finditer(r'^Theorem (C\d\d)(_\w+)',open(f).read(),re.M):
        th.setdefault(m.group(1),[]).append(m.group(1)+m.group(2))
claims=[]
for line in open(root+'/properties.jsonl'):
    p=json.loads(line)['id']
    t=th.get(p,[])
    if not t and p not in STATUS: continue
    st=STATUS.get(p) or ('partial' if any(x.endswith('_partial') or x.endswith('_refuted') for x in t) else 'proved')
    claims.append({"property":p,"status":st,"theorems":t,"note":NOTES.get(p,"")})
json.dump({"claims":claims},open(root+'/MANIFEST.json','w'),indent=1)
print(len(claims),"claims",sum(len(c['theorems']) for c in claims),"theorems;",
      [json.loads(l)['id'] for l in open(root+'/properties.jsonl') if json.loads(l)['id'] not in {c['property'] for c in claims}])
