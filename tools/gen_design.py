#!/usr/bin/env python3
"""Writes DESIGN.md: fixed text, the table of properties, and the axioms printed under each theorem."""
import json,os,re,subprocess,glob
V='/verif'
P={}
for l in open(V+'/properties.jsonl'):
    x=json.loads(l);P[x['id']]=x
claims={c['property']:c for c in json.load(open(V+'/MANIFEST.json'))['claims']}
HOW=runpy=None
exec(open(V+'/tools/design_how.py').read())
ax={}
for g in sorted(glob.glob(V+'/rocq/theories/Properties_*.v')):
    src=open(g).read(); thms=re.findall(r'^Theorem (\w+)',src,re.M)
    out=subprocess.run(['coqc','-Q','theories','Verif',os.path.relpath(g,V+'/rocq')],cwd=V+'/rocq',capture_output=True,text=True).stdout
    blocks=re.split(r'^(Axioms:|Closed under the global context)$',out,flags=re.M)[1:]
    blocks=[(blocks[i],blocks[i+1]) for i in range(0,len(blocks),2)]
    assert len(blocks)==len(thms),(g,len(blocks),len(thms))
    for t,(h,b) in zip(thms,blocks):
        ax[t]=tuple(sorted(set(re.findall(r'^([A-Za-z_][\w.]*)\s*(?::|$)',b,re.M)))) if h.startswith('Ax') else ()
sets={}
for t,a in ax.items(): sets.setdefault(a,[]).append(t)
out=[TEXT1]
out.append('| Id | Property | Modelled in / proved in | How |\n|----|----|----|----|')
for i in sorted(P,key=lambda s:int(s[1:])):
    w,h=HOW[i]; c=claims[i]
    out.append(f"| {i} | {P[i]['title']} ({c['status']}; {len(c['theorems'])} theorem{'s' if len(c['theorems'])!=1 else ''}) | {w} | {h} |")
out.append(TEXT2)
for a,ts in sorted(sets.items(),key=lambda x:len(x[0])):
    out.append(('* **Closed under the global context** (no axioms)' if not a else '* **'+', '.join(f'`{x}`' for x in a)+'**')+': '+', '.join(sorted(ts,key=lambda s:(int(s[1:3]),s)))+'.')
out.append(TEXT3)
open(V+'/DESIGN.md','w').write('\n'.join(out)+'\n')
print(len(ax),'theorems',len(sets),'axiom sets')
