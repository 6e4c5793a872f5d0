#!/usr/bin/env python3
"""Test the theorems against wrong programs.
usage: mutate.py MUTANTS.py RESULTS.jsonl [name ...]
Each mutant: dict(name, file, old, new, claim, groups). Works in a scratch copy; a lemma that no longer
compiles is admitted and the build goes on, so that every theorem that depends on a broken lemma is found
(Print Assumptions of the generated Properties_*.v files)."""
import sys, os, re, subprocess, json, shutil, runpy, time
BASE='/tmp/mut/base'; W='/tmp/mut/work'
def sh(cmd, cwd=None, timeout=3000):
    try:
        r=subprocess.run(cmd,shell=True,cwd=cwd,stdout=subprocess.PIPE,stderr=subprocess.STDOUT,timeout=timeout,text=True,errors='replace')
        return r.returncode,r.stdout
    except subprocess.TimeoutExpired as e:
        return 124,(e.stdout or b'').decode(errors='replace') if isinstance(e.stdout,bytes) else (e.stdout or '')
def prepare():
    os.makedirs('/tmp/mut',exist_ok=True)
    sh(f'rm -rf {BASE}; cp -a /verif/rocq {BASE}')
    sh('coq_makefile -f _CoqProject -o Makefile',cwd=BASE)
    rc,out=sh('make -j4',cwd=BASE,timeout=3600)
    assert rc==0,out[-2000:]
DECL=re.compile(r'^[ \t]*(?:#\[[^\]]*\][ \t]*)?(?:Local |Global )?(Lemma|Theorem|Fact|Corollary|Remark|Example|Instance|Definition|Fixpoint|Inductive|Record|Ltac|Section|End|Notation|Let|Variables?|Hypothes[ie]s|Hypothesis)\s+([A-Za-z0-9_\']+)',re.M)
def admit(path,line):
    s=open(path,encoding='utf-8').read()
    lines=s.split('\n'); off=sum(len(l)+1 for l in lines[:line-1])
    eol=off+len(lines[line-1])
    last=None
    for m in DECL.finditer(s,0,eol):
        if m.start()<=eol and not (m.group(1)=='Ltac' and s[m.start()] in ' \t'): last=m
    if not last or last.group(1) not in('Lemma','Theorem','Fact','Corollary','Remark','Example','Instance','Definition'): return None,(last.group(2) if last else '?')
    pr=re.compile(r'\bProof\b[^.]*\.').search(s,last.start())
    qd=re.compile(r'\b(Qed|Defined)\.').search(s,last.start())
    if not pr or not qd or pr.start()>qd.start() or qd.end()<off: return None,last.group(2)
    if pr.start()>off and off>=last.start() and pr.start()>eol: return None,last.group(2)   # statement itself broken
    s=s[:pr.start()]+'Proof. Admitted.'+s[qd.end():]
    open(path,'w',encoding='utf-8').write(s)
    return last.group(2),None
def run(m):
    sh(f'rm -rf {W}; cp -a {BASE} {W}')
    path=f'{W}/theories/{m["file"]}.v'
    s=open(path,encoding='utf-8').read()
    if s.count(m['old'])!=m.get('count',1): return dict(m,error=f'old text occurs {s.count(m["old"])} times')
    i=s.index(m['old'])
    open(path,'w',encoding='utf-8').write(s[:i]+m['new']+s[i+len(m['old']):])
    groups=m.get('groups') or [f[len('Properties_'):-2] for f in os.listdir(W+'/theories') if f.startswith('Properties_') and f.endswith('.v')]
    tg=' '.join(f'theories/Properties_{g}.vo' for g in groups)
    broken=[];defs=[]; t0=time.time()
    for _ in range(60):
        rc,out=sh(f'timeout 900 make -k -j{os.environ.get("J","3")} {tg}',cwd=W)
        if rc==0: break
        errs=set(re.findall(r'File "\./theories/(\w+)\.v", line (\d+), characters [\d-]+:\nError',out))
        if not errs: defs.append('no error located: '+out[-300:]); break
        prog=False
        for f,l in errs:
            n,d=admit(f'{W}/theories/{f}.v',int(l))
            if n: broken.append(f+'.'+n); prog=True
            else:
                e=f'{f}.{d}'
                if e not in defs: defs.append(e)
        if not prog: break
        if time.time()-t0>3000: defs.append('time limit'); break
    failed=[]
    names={b.split('.')[1] for b in broken}
    for g in groups:
        src=open(f'{W}/theories/Properties_{g}.v').read()
        thms=re.findall(r'^Theorem (\w+)',src,re.M)
        if not os.path.exists(f'{W}/theories/Properties_{g}.vo'):
            failed+= [t+' (not reached)' for t in thms]; continue
        rc,out=sh(f'coqc -Q theories Verif theories/Properties_{g}.v',cwd=W)
        blocks=re.split(r'^(?:Axioms:|Closed under the global context)$',out,flags=re.M)[1:]
        for t,b in zip(thms,blocks):
            ax=set(re.findall(r'^([\w.\']+)\s*:?',b,re.M)); ax={a.split('.')[-1] for a in ax}
            if ax & names: failed.append(t)
    return dict(m,broken=broken,definitions=defs,failed=failed,time=int(time.time()-t0))
if __name__=='__main__':
    muts=runpy.run_path(sys.argv[1])['MUTANTS']; sel=sys.argv[3:]
    if sel!=['noprep'] and not os.environ.get('NOPREP'): prepare()
    for m in muts:
        if sel and m['name'] not in sel: continue
        r=run(m)
        open(sys.argv[2],'a').write(json.dumps(r)+'\n')
        print(m['name'],'| broken',len(r.get('broken',[])),'| failed',len(r.get('failed',[])),'| defs',r.get('definitions'),'|',r.get('error',''),r.get('time'),flush=True)
