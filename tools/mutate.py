#!/usr/bin/env python3
"""Mutation testing of the model (scratch copy only).
usage: mutate.py MUTFILE.json [--dry]
MUTFILE: list of {file, old, new, definition, edit, breaks}.  For each: copy /verif/rocq to a scratch dir, apply the edit,
recompile everything downstream; a lemma whose proof fails is Admitted and compilation goes on; at the end the manifest
theorems whose Print Assumptions mentions an admitted lemma are the ones that failed."""
import sys,os,re,json,subprocess,shutil,time
SRC=os.environ.get('MUTSRC','/verif/rocq'); W=os.environ.get('MUTDIR','/tmp/mut')
def order():
    out=subprocess.run("cd %s && coqdep -Q theories Verif -sort theories/*.v"%SRC,shell=True,capture_output=True,text=True).stdout
    return [os.path.basename(f)[:-2] for f in out.split()]
def deps():
    out=subprocess.run("cd %s && coqdep -Q theories Verif theories/*.v"%SRC,shell=True,capture_output=True,text=True).stdout
    d={}
    for l in out.splitlines():
        m=re.match(r'theories/(\w+)\.vo .*?: (.*)',l)
        if m: d[m.group(1)]=[os.path.basename(x)[:-3] for x in m.group(2).split() if x.endswith('.vo')]
    return d
HEAD=re.compile(r'^\s*(?:#\[[^\]]*\]\s*)?(Lemma|Theorem|Corollary|Example|Fact|Remark|Instance|Global Instance|Local Lemma)\s+(\w+)',re.M)
def compile(f,limit):
    p=subprocess.run("ulimit -v 8000000; cd %s/theories && timeout -s KILL %d coqc -Q . Verif %s.v"%(W,limit,f),shell=True,capture_output=True,text=True)
    if p.returncode in (137,-9,124): return 'timeout',None
    if p.returncode==0: return 'ok',None
    m=re.search(r'line (\d+), characters (\d+)-',p.stderr+p.stdout)
    return 'err',(int(m.group(1)) if m else None, (p.stderr+p.stdout)[-400:])
def timeout_line(f,limit):
    p=subprocess.run("ulimit -v 8000000; cd %s/theories && timeout %d coqc -time -Q . Verif %s.v > %s_time.txt 2>&1"%(W,limit,f,W),shell=True)
    last=0
    for l in open(W+'_time.txt',errors='replace'):
        m=re.match(r'Chars (\d+) - (\d+)',l)
        if m: last=int(m.group(2))
    return last
def admit_at(f,pos):
    p='%s/theories/%s.v'%(W,f); s=open(p).read()
    hs=[m for m in HEAD.finditer(s) if m.start()<=pos]
    if not hs: return None
    m=hs[-1]
    q=re.search(r'\b(Qed|Defined)\.',s[m.start():])
    if not q: return None
    end=m.start()+q.end()
    if pos>end+2: return None   # error outside a proof
    body=s[m.start():end]
    pi=re.search(r'\bProof\b[^.]*\.',body)
    if not pi: return None
    st=body[:pi.start()]
    extra=' '.join(x for x in re.findall(r'(?:Transparent|Opaque)[^.]*\.',body[pi.start():]))
    s=s[:m.start()]+st+'Proof. '+extra+' Admitted.'+s[end:]
    open(p,'w').write(s); return m.group(2)
def linepos(f,line):
    ls=open('%s/theories/%s.v'%(W,f)).read().split('\n'); return sum(len(x)+1 for x in ls[:line-1])
LIM={'P_TLS_std_server':70,'P_TLS_std_server2':130,'P_TLS_std_client':90,'P_TLS_std_client2':140,'P_TLS_std_agree':60}
def limit_of(f): return LIM.get(f,40 if f.startswith('TLS_std') or f.startswith('P_TLS_std') else 200)
def run(mu):
    if os.path.isdir(W): shutil.rmtree(W)
    shutil.copytree(SRC,W)
    p='%s/theories/%s.v'%(W,mu['file']); s=open(p).read()
    if s.count(mu['old'])<1: return {'status':'NOMATCH'}
    if s.count(mu['old'])>1 and not mu.get('nth'): return {'status':'AMBIGUOUS %d'%s.count(mu['old'])}
    if mu.get('nth'):
        parts=s.split(mu['old']); k=mu['nth']; s=mu['old'].join(parts[:k])+mu['new']+mu['old'].join(parts[k:])
    else: s=s.replace(mu['old'],mu['new'])
    open(p,'w').write(s)
    for f in mu.get('stub',[]):   # files the edit cannot matter for: statements only
        q='%s/theories/%s.v'%(W,f); t=open(q).read()
        t=re.sub(r'\bProof\.(?:(?!\bProof\.).)*?\bQed\.',lambda m:'Proof. '+' '.join(re.findall(r'(?:Transparent|Opaque)[^.]*\.',m.group(0)))+' Admitted.',t,flags=re.S)
        open(q,'w').write(t)
    od=[f for f in order() if f not in mu.get('skip',[])]; dp=deps(); dirty={mu['file']}; admitted=[]; blocked=[]
    for f in od:
        if f!=mu['file'] and not any(d in dirty for d in dp.get(f,[])): continue
        dirty.add(f)
        if any(d in blocked for d in dp.get(f,[])): blocked.append(f); continue
        tries=0
        while True:
            tries+=1
            st,info=compile(f,limit_of(f))
            if st=='ok': break
            if st=='timeout': pos=timeout_line(f,limit_of(f))+1
            else: pos=linepos(f,info[0]) if info[0] else -1
            nm=admit_at(f,pos) if pos>=0 else None
            if nm is None or tries>60: blocked.append(f); admitted.append('%s: does not typecheck (%s)'%(f,(info[1][-200:].replace('\n',' ') if info else st))); break
            admitted.append(f+'.'+nm)
    man=json.load(open('/verif/MANIFEST.json')); failed=[]
    thms=sorted({t for c in man['claims'] for t in c['theorems']})
    files={}
    for f in od:
        for m in HEAD.finditer(open('%s/theories/%s.v'%(SRC,f)).read()): files.setdefault(m.group(2),f)
    adm={a.split('.')[-1] for a in admitted}
    q=[t for t in thms if files.get(t) in dirty and files[t] not in mu.get('stub',[])]
    for t in q:
        if files[t] in blocked: failed.append(t)
    q=[t for t in q if files[t] not in blocked]
    if q and admitted:
        with open(W+'/theories/zz.v','w') as o:
            o.write('From Verif Require Import %s.\n'%' '.join(sorted({files[t] for t in q})))
            for t in q: o.write('Module M_%s. End M_%s.\nPrint Assumptions %s.\n'%(t,t,t))
        out=subprocess.run("cd %s/theories && coqc -Q . Verif zz.v"%W,shell=True,capture_output=True,text=True)
        chunks=re.split(r'(?=Closed under the global context|Axioms:)',out.stdout)[1:]
        for t,c in zip(q,chunks):
            if c.startswith('Axioms:') and any(re.search(r'\b%s\b'%re.escape(a),c) for a in adm): failed.append(t)
    return {'status':'ok','admitted':admitted,'failed':failed,'blocked':blocked,'checked':q}
if __name__=='__main__':
    for mu in json.load(open(sys.argv[1]))[slice(*map(int,os.environ.get('MUTRANGE','0:9999:1').split(':')))]:
        t=time.time(); r=run(mu)
        print(json.dumps({'definition':mu['definition'],'edit':mu['edit'],'breaks':mu['breaks'],**r,'secs':int(time.time()-t)}),flush=True)
        if r['status']=='ok' and '--dry' not in sys.argv:
            with open('/verif/seeded/LOG.jsonl','a') as o:
                o.write(json.dumps({'definition':mu['file']+'.v: '+mu['definition'],'edit':mu['edit'],'claim_broken':mu['breaks'],'theorems_failed':r['failed'],'lemmas_whose_proofs_failed':r['admitted'],'theorems_tightened':[] })+'\n')
