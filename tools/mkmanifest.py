#!/usr/bin/env python3
"""Writes MANIFEST.json from tools/claims.txt: 'Cxx | status | theorem, theorem | note'."""
import json
claims=[]
for l in open('/verif/tools/claims.txt'):
    l=l.strip()
    if not l or l.startswith('#'): continue
    p,st,th,note=[x.strip() for x in l.split('|')]
    claims.append({"property":p,"status":st,"theorems":[t.strip() for t in th.split(',') if t.strip()],"note":note})
json.dump({"claims":claims},open('/verif/MANIFEST.json','w'),indent=1)
print(len(claims))
