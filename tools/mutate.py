#!/usr/bin/env python3
"""Apply one wrong edit to the model in a scratch copy and report which theorems stop being proved.

usage: mutate.py batch.json worker-dir out.jsonl
batch: [{"file": "IntModel", "definition": "U8_loop", "old": "...", "new": "...", "edit": "...", "claim": "C07"}]
(the first occurrence of "old" inside the definition is replaced)

A lemma whose proof breaks is admitted in the scratch copy so that the files after it can still be
checked; a theorem counts as failed when its proof breaks or when Print Assumptions shows that it
rests on a lemma admitted this way.
"""
import json, os, re, subprocess, sys, shutil
SRC=os.environ.get('MUT_SRC','/verif/rocq')
HEAD=re.compile(r'^\s*(?:Local\s+|Global\s+)?(Lemma|Theorem|Example|Corollary|Fact|Remark|Proposition|Goal|Instance)\s+([\w\']+)')
DEF=re.compile(r'^\s*(Definition|Fixpoint|Inductive|Record|Notation|Ltac)\s+([\w\']+)')
def sh(c,t=3000,cwd=None):
    try: return subprocess.run(c,shell=True,cwd=cwd,capture_output=True,text=True,timeout=t)
    except subprocess.TimeoutExpired as e:
        class R: pass
        r=R(); r.stdout=''; r.stderr='TIMEOUT'; r.returncode=124; return r
def admit(path,line,log):
    L=open(path).read().split('\n')
    i=min(line-1,len(L)-1)
    while i>=0 and not HEAD.match(L[i]):
        if DEF.match(L[i]) and i!=line-1 and False: return None
        i-=1
    if i<0: return None
    name=HEAD.match(L[i]).group(2)
    # end of proof
    j=i
    while j<len(L) and not re.search(r'\b(Qed|Defined)\.\s*$',L[j]) : j+=1
    if j>=len(L): return None
    if j<line-1: return None
    # statement end: line containing 'Proof'
    k=i
    while k<=j and not re.search(r'\bProof\b',L[k]): k+=1
    if k>j: return None
    pre=L[k][:re.search(r'\bProof\b',L[k]).start()]
    new=[pre+'Proof. Admitted.']+['']*(j-k)
    L[k:j+1]=new
    open(path,'w').write('\n'.join(L)); log.append(os.path.basename(path)[:-2]+'.'+name); return name
def run(m,w):
    sh(f'rm -rf {w}; mkdir -p {w}; cp -a {SRC}/. {w}/')
    f=f'{w}/theories/{m["file"]}.v'; s=open(f).read()
    d=re.search(r'^\s*(?:Definition|Fixpoint|Record|Inductive)\s+'+re.escape(m['definition'])+r'(?![\w\'])',s,re.M)
    if not d: return dict(m,status='bad edit: no definition')
    k=s.find(m['old'],d.start()); n=re.search(r'\n\s*(?:Definition|Fixpoint|Record|Inductive)\s',s[d.end():])
    if k<0 or (n and k>d.end()+n.start()): return dict(m,status='bad edit: no match')
    open(f,'w').write(s[:k]+m['new']+s[k+len(m['old']):])
    wrap=f'{w}/coqc.sh'
    open(wrap,'w').write('#!/bin/bash\ntimeout 240 coqc "$@"; r=$?\nif [ $r = 124 ]; then echo "TIMEOUT ${@: -1}" >&2; fi\nexit $r\n'); os.chmod(wrap,0o755)
    log=[]; before=os.path.getmtime(f)
    for it in range(80):
        r=sh(f'make -k -j2 COQC={wrap} 2>&1',cwd=w)
        out=r.stdout
        if r.returncode==0: break
        errs={}
        for fn,ln in re.findall(r'File "\./(theories/\w+\.v)", line (\d+), characters [\d-]+:\s*\nError',out): errs.setdefault(fn,int(ln))
        for fn in re.findall(r'TIMEOUT (theories/\w+\.v)',out):
            q=sh(f'timeout 200 coqc -time -Q theories Verif {fn}',cwd=w).stdout
            c=re.findall(r'Chars (\d+) - (\d+)',q)
            pos=int(c[-1][1]) if c else 0
            errs.setdefault(fn,open(f'{w}/{fn}',errors='replace').read()[:pos+2].count('\n')+1)
        if not errs: return dict(m,status='build broken',out=out[-600:])
        for fn,ln in errs.items():
            if admit(f'{w}/{fn}',ln,log) is None: return dict(m,status='not in a proof',where=f'{fn}:{ln}',out=out[-600:])
    else: return dict(m,status='too many',admitted=log)
    if not log: return dict(m,status='SURVIVED',failed=[])
    # which property theorems are affected
    files=[x[:-2] for x in sorted(os.listdir(f'{w}/theories')) if x.endswith('.v') and 'Theorems' in x and os.path.getmtime(f'{w}/theories/{x}o')>before]
    # names that may depend on an admitted lemma, by text; Print Assumptions then decides
    bad={a.split('.')[1] for a in log}; ITEM=re.compile(r'^\s*(?:Local\s+|Global\s+)?(?:Lemma|Theorem|Example|Corollary|Fact|Remark|Proposition|Instance|Ltac|Definition|Fixpoint)\s+([\w\']+)',re.M)
    body={}
    for x in os.listdir(f'{w}/theories'):
        if not x.endswith('.v'): continue
        t=open(f'{w}/theories/{x}').read(); ms=list(ITEM.finditer(t))
        for a,b in zip(ms,ms[1:]+[None]):
            body.setdefault(a.group(1),set()).update(re.findall(r"[\w']+",t[a.end():b.start() if b else len(t)]))
    more=True
    while more:
        more=False
        for k,v in body.items():
            if k not in bad and v&bad: bad.add(k); more=True
    names=[]
    for x in files:
        for n in re.findall(r'^(?:Theorem|Corollary) (C\d+_\w+)',open(f'{w}/theories/{x}.v').read(),re.M):
            if n in bad: names.append((x,n))
    files=sorted({x for x,_ in names})
    failed=[]
    if names:
        t='From Verif Require '+' '.join(files)+'.\n'+''.join(f'Goal True. idtac "##{x}.{n}". Abort.\nPrint Assumptions {x}.{n}.\n' for x,n in names)
        open(f'{w}/Chk.v','w').write(t)
        o=sh('timeout 1500 coqc -Q theories Verif Chk.v',cwd=w).stdout
        for blk in o.split('##')[1:]:
            n=blk.split('\n')[0]
            if 'Axioms:' in blk: failed.append(n)
    return dict(m,status='caught',failed=failed,admitted=log)
if __name__=='__main__':
    batch=json.load(open(sys.argv[1]))
    for m in batch:
        r=run(m,sys.argv[2])
        with open(sys.argv[3],'a') as g: g.write(json.dumps(r)+'\n')
        print(m['file'],m.get('edit','')[:60],'->',r['status'],r.get('failed',r.get('out'))if r['status']!='bad edit' else '',flush=True)
