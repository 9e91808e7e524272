#!/usr/bin/env python3
"""Seeded-bug runner.  usage: seed.py MUTATIONS.json [--log]
Each mutation: {"file","old","new","definition","edit","claim"}.  The model is edited in a scratch copy (/tmp/seed), rebuilt,
every lemma that no longer proves is admitted *in the scratch copy only* so that the build goes on, and the property theorems
whose proofs then use an admitted lemma, directly or not, are the ones that failed."""
import json,os,re,shutil,subprocess,sys
# the sources of the last commit
subprocess.run('rm -rf /tmp/seedsrc && mkdir /tmp/seedsrc && git -C /verif archive HEAD rocq | tar x -C /tmp/seedsrc',shell=True,check=True)
SRC='/tmp/seedsrc/rocq'; BASE='/tmp/seedbase'; DST='/tmp/seed'
def sh(c,t=900):
    p=subprocess.run(c,shell=True,cwd=DST,stdout=subprocess.PIPE,stderr=subprocess.STDOUT,text=True,timeout=t); return p.returncode,p.stdout
def base():
    # compiled copy of the sources without the Print Assumptions commands (slow), refreshed when the sources change
    os.makedirs(BASE+'/theories',exist_ok=True)
    shutil.copy(SRC+'/_CoqProject',BASE+'/_CoqProject')
    for f in files():
        t=re.sub(r'^Print Assumptions .*$','',open(SRC+'/'+f).read(),flags=re.M); q=BASE+'/'+f
        if not os.path.exists(q) or open(q).read()!=t: open(q,'w').write(t)
    p=subprocess.run('coq_makefile -f _CoqProject -o Makefile && make -j4',shell=True,cwd=BASE,stdout=subprocess.PIPE,stderr=subprocess.STDOUT,text=True)
    if p.returncode: sys.exit(p.stdout[-2000:])
def imports():
    im={}
    for f in files():
        im[f]=['theories/'+m+'.v' for l in re.findall(r'^From Verif Require (?:Import|Export) ([^.]*)\.',open(SRC+'/'+f).read(),re.M) for m in l.split()]
    return im
def uses():
    # names are resolved per file: in the file itself, otherwise in the files it imports (the last one wins)
    im=imports(); defs={}; body={}
    for f in files():
        t=open(SRC+'/'+f).read()
        ms=list(re.finditer(r'^\s*(?:Local |Global )?(?:Lemma|Theorem|Corollary|Example|Definition|Fixpoint|Instance)\s+([A-Za-z0-9_\']+)',t,re.M))
        defs[f]=set()
        for a,b in zip(ms,ms[1:]+[None]):
            defs[f].add(a.group(1)); body.setdefault((f,a.group(1)),set()).update(re.findall(r"[A-Za-z_][A-Za-z0-9_']*",t[a.end():b.start() if b else len(t)]))
    g={}
    for (f,n),ws in body.items():
        r=set()
        for w in ws:
            for h in [f]+im[f][::-1]:
                if h in defs and w in defs[h]: r.add((h,w)); break
        g[(f,n)]=r
    return g
def files(): return [l.strip() for l in open(SRC+'/_CoqProject') if l.strip().endswith('.v')]
START=re.compile(r'^\s*(?:Local |Global |#\[[^\]]*\] )*(Lemma|Theorem|Corollary|Example|Fact|Remark|Instance|Definition|Fixpoint|Ltac|Inductive|Record|Notation)\s+([A-Za-z0-9_\']+)')
def admit(f,line):
    p=DST+'/'+f; L=open(p).read().split('\n'); i=line-1
    while i>=0 and not START.match(L[i]): i-=1
    if i<0: return None
    m=START.match(L[i]); kind,name=m.groups()
    j=i
    while j<len(L) and not re.search(r'\b(Qed|Defined)\.',L[j]): j+=1
    body='\n'.join(L[i:j+1])
    k=re.search(r'(?<![A-Za-z_])Proof\b[^.]*\.',body)
    if not k or kind in('Fixpoint','Ltac','Inductive','Record','Notation'): return None
    # closed by a term on one line: Example x : t. Proof. reflexivity. Qed.
    new=body[:k.end()]+' Admitted.'
    rest=L[j+1:]
    # drop text on line j after Qed.
    L[i:j+1]=new.split('\n')+['']*( (j+1-i)-len(new.split('\n')))
    open(p,'w').write('\n'.join(L)); return kind,name
def run(mu):
    fs=files()
    shutil.rmtree(DST,ignore_errors=True); subprocess.run(['cp','-a',BASE,DST],check=True)
    p=DST+'/theories/'+mu['file']; s=open(p).read()
    if s.count(mu['old'])<1: return None,'pattern not found: '+mu['old']
    n=mu.get('nth',0); parts=s.split(mu['old'])
    s=mu['old'].join(parts[:n+1])+mu['new']+mu['old'].join(parts[n+1:])
    open(p,'w').write(s)
    failed=[]
    for it in range(80):
        rc,out=sh('timeout 800 make -j4 2>&1')
        if rc==0: break
        errs=re.findall(r'File "\./(theories/\S+\.v)", line (\d+), characters [^\n]*\n(Error[^\n]*(?:\n[^\n]*){0,3})',out)
        if not errs:
            errs2=re.findall(r'File "\./(theories/\S+\.v)", line (\d+)',out)
            if not errs2: return None,out[-1500:]
            errs=[(a,b,'') for a,b in errs2[-1:]]
        prog=False; seen=set()
        for f,l,_ in errs:
            if f in seen: continue
            seen.add(f)
            r=admit(f,int(l))
            if r is None: return None,'cannot admit '+f+':'+l+' '+out[-800:]
            failed.append((f,r[1])); prog=True
        if not prog: return None,out[-1500:]
    else: return None,'too many iterations'
    if not failed: return [], []
    names=set(failed)
    g=uses(); bad=set(names); ch=True
    while ch:
        new={k for k,v in g.items() if k not in bad and v&bad}
        ch=bool(new); bad|=new
    thms=[]
    for f in fs:
        if os.path.basename(f).startswith('Prop'): thms+=[x for x in re.findall(r'^Theorem ([A-Za-z0-9_\']+)',open(SRC+'/'+f).read(),re.M) if (f,x) in bad]
    return [n for k,n in failed],thms
if __name__=='__main__':
    base(); ms=json.load(open(sys.argv[1])); log='--log' in sys.argv
    for mu in ms:
        try: lem,th=run(mu)
        except subprocess.TimeoutExpired: lem,th=None,'timeout'
        print('==',mu['definition'],'|',mu['edit']); 
        if lem is None: print('   INVALID',th); continue
        if not th: print('   SURVIVED: property theorems still prove; lemmas failed:',lem)
        else: print('   failed:',', '.join(th),'| lemmas:',', '.join(lem))
        sys.stdout.flush()
        if log:
            with open('/verif/seeded/LOG.jsonl','a') as o:
                o.write(json.dumps({"definition":mu['definition'],"file":mu['file'],"edit":mu['edit'],"claim_broken":mu['claim'],"theorems_failed":th,"theorems_tightened":mu.get('tightened',[])})+'\n')
