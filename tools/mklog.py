#!/usr/bin/env python3
"""mklog.py RES.jsonl... : turn results of mutate.py into lines of seeded/LOG.jsonl (appends, skipping known edits)."""
import sys, json, re
LOG='/verif/seeded/LOG.jsonl'
known=set()
for l in open(LOG):
    if l.strip(): d=json.loads(l); known.add((d['file'],d['edit']))
DEF=re.compile(r'^[ \t]*(?:Definition|Fixpoint|Inductive|Record)\s+([A-Za-z0-9_\']+)',re.M)
def where(f,old,new):
    s=open(f'/verif/rocq/theories/{f}.v').read(); i=s.find(old)
    if i<0: return '?'
    # first character that differs
    k=0
    while k<min(len(old),len(new)) and old[k]==new[k]: k+=1
    n='?'
    for m in DEF.finditer(s):
        if m.start()>i+k: break
        n=m.group(1)
    return n
NOTES=json.load(open('/verif/seeded/notes.json')) if __import__('os').path.exists('/verif/seeded/notes.json') else {}
out=open(LOG,'a'); surv=[]
TIGHT=json.load(open('/verif/seeded/tightened.json')) if __import__('os').path.exists('/verif/seeded/tightened.json') else {}
for f in sys.argv[1:]:
    for l in open(f):
        r=json.loads(l)
        if r.get('error'): print('error',r['name'],r['error']); continue
        edit=f"{r['old']}  ==>  {r['new']}"
        if (r['file'],edit) in known: continue
        known.add((r['file'],edit))
        if not r['failed'] and not r['definitions']: surv.append(r['name'])
        out.write(json.dumps(dict(definition=r['file']+'.'+where(r['file'],r['old'],r['new']),file=r['file'],name=r['name'],edit=edit,claim=r['claim'],
            failed=[x for x in r['failed'] if 'not reached' not in x],statements_no_longer_typecheck=r['definitions'],lemmas_broken=r['broken'],tightened=TIGHT.get(r['name'],[]),**({'note':NOTES[r['name']]} if r['name'] in NOTES else {})))+'\n')
print('survivors',surv)
