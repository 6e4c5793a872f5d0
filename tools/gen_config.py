#!/usr/bin/env python3
"""Transcribes /repo/mimosa/inputdata/config/config_default.yaml to ConfigDefault.v.
Only the YAML features used in that file are supported. `descr` entries are omitted."""
import re,sys
from fractions import Fraction
SRC='/repo/mimosa/inputdata/config/config_default.yaml'
lines=[]
for n,l in enumerate(open(SRC),1):
    s=l.rstrip('\n')
    if not s.strip() or s.strip().startswith('#'): continue
    lines.append((n,len(s)-len(s.lstrip()),s.strip()))
anchors={}
def scalar(s):
    if s in('',): return None
    if s[0]=='"' and s[-1]=='"': return ('s',s[1:-1])
    if s in('True','true'): return True
    if s in('False','false'): return False
    if re.fullmatch(r'-?\d+',s): return int(s)
    if re.fullmatch(r'-?\d+\.\d+',s): return Fraction(s)
    assert s not in('yes','no','on','off','null','~','Yes','No'),s
    return ('s',s)
def block(i,ind):
    if lines[i][2].startswith('- '):
        out=[]
        while i<len(lines) and lines[i][1]==ind and lines[i][2].startswith('- '):
            n,_,s=lines[i]; rest=s[2:]
            if re.match(r'[A-Za-z0-9_]+: ',rest):
                lines[i]=(n,ind+2,rest)
                v,i=block(i,ind+2)
                out.append(v)
            else:
                out.append(scalar(rest)); i+=1
        return out,i
    d={}
    while i<len(lines) and lines[i][1]==ind and not lines[i][2].startswith('- '):
        n,_,s=lines[i]
        m=re.match(r'([^:]+):(.*)$',s); k,rest=m.group(1),m.group(2).strip()
        i+=1
        if k=='<<':
            for kk,vv in anchors[rest[1:]].items(): d[kk]=vv
            continue
        anchor=None
        if rest.startswith('&'): anchor=rest[1:]; rest=''
        if rest=='>-':
            while i<len(lines) and lines[i][1]>ind: i+=1
            v=('s','')
        elif rest=='':
            if i<len(lines) and lines[i][1]>ind: v,i=block(i,lines[i][1])
            else: v=None
        else: v=scalar(rest)
        if anchor: anchors[anchor]=v
        if isinstance(v,dict): LN[id(v)]=n
        d[k]=v
    return d,i
LN={}
top,_=block(0,0)
def q(s): assert '"' not in s; return '"'+s+'"'
def coq(v,ind):
    pad='  '*ind
    if v is None: return 'VNone'
    if v is True: return 'VBool true'
    if v is False: return 'VBool false'
    if isinstance(v,int): return 'VInt (%d)'%v
    if isinstance(v,Fraction): return 'VFloat (FFin (%d # %d))'%(v.numerator,v.denominator)
    if isinstance(v,tuple): return 'VStr '+q(v[1])
    if isinstance(v,list):
        return 'VList [\n'+';\n'.join(pad+'  '+coq(x,ind+1) for x in v)+' ]'
    items=[(k,x) for k,x in v.items() if k!='descr']
    return 'VDict [\n'+';\n'.join(pad+'  (KStr %s, %s)'%(q(k),coq(x,ind+1)) for k,x in items)+' ]'
out=['(** mimosa/inputdata/config/config_default.yaml 1-572, transcribed by tools/gen_config.py.',
'    Simplification: [descr] entries (only used in messages) are omitted; decimal literals are',
'    exact rationals. *)','From Verif Require Import PyBase.','Open Scope Z_scope.','']
names=[]
for k,v in top.items():
    nm='tpl_'+re.sub(r'\W','_',k); names.append((k,nm))
    out.append('(** config_default.yaml: section %s *)'%k)
    out.append('Definition %s : pyval :=\n  %s.\n'%(nm,coq(v,1)))
out.append('Definition config_default : pyval :=\n  VDict [\n'+';\n'.join('    (KStr %s, %s)'%(q(k),nm) for k,nm in names)+' ].')
open(sys.argv[1],'w').write('\n'.join(out)+'\n')
