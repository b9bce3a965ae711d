"""Turn mutation-run outputs (/tmp/mut/out*.jsonl) into seeded/LOG.jsonl.
usage: mklog.py OUT...   (keeps hand-written lines of LOG.jsonl, i.e. those whose id is not m..)"""
import json,sys,os
P='/verif/seeded/LOG.jsonl'
keep=[]; tight={}
if os.path.exists('/verif/seeded/tightened.json'): tight=json.load(open('/verif/seeded/tightened.json'))
notes=json.load(open('/verif/seeded/notes.json')) if os.path.exists('/verif/seeded/notes.json') else {}
old={}
if os.path.exists(P):
    for l in open(P):
        if l.strip():
            d=json.loads(l); old[d['id']]=d
for f in sys.argv[1:]:
    for l in open(f):
        d=json.loads(l)
        if d.get('error') or d.get('stuck'): continue
        broken=d['claims']
        tf=[t for c in broken for t in d['dead'].get(c,[])]
        oth=sorted({t for c in d['dead'] if c not in broken for t in d['dead'][c]})
        old[d['id']]=dict(id=d['id'],definition=d['file']+'.v: '+d['edit'].split(':')[0],edit=d['edit'].split(':',1)[-1].strip(),
          old=d['old'],new=d['new'],claim_broken=broken,theorems_failed=tf,first_failing_lemmas=d['direct'],
          other_theorems_left_unproved=oth,survived=d['survived'],theorems_tightened=tight.get(d['id'],[]))
        if d['id'] in notes: old[d['id']]['note']=notes[d['id']]
with open(P,'w') as o:
    for k in sorted(old): o.write(json.dumps(old[k])+'\n')
print(len(old))
