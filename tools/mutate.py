#!/usr/bin/env python3
"""Seeded-bug runner.  usage: mutate.py MUTANTS.jsonl RESULTS.jsonl [workers]
Each mutant: {"id","file","def","old","new","claim","breaks"} (old must occur once in the definition,
or give "nth").  A scratch copy of rocq/ is edited and rebuilt; every lemma whose proof no
longer checks is admitted in the scratch copy so that the rest is still examined; a property
theorem has failed if Print Assumptions then lists an admitted lemma."""
import json, os, re, shutil, subprocess, sys, threading, queue
BASE=os.environ.get('MUTBASE','/tmp/base')+'/rocq'
HEAD=re.compile(r'^\s*(?:#\[[^\]]*\]\s*)?(?:Local\s+|Global\s+)?(?:Lemma|Theorem|Corollary|Example|Fact|Instance|Remark|Definition|Fixpoint|Program Definition)\s+([A-Za-z_0-9\']+)')
def setup():
    if os.path.exists(BASE): shutil.rmtree(BASE)
    os.makedirs(os.path.dirname(BASE),exist_ok=True)
    subprocess.run(['cp','-a','/verif/rocq',BASE],check=True)
    subprocess.run('coq_makefile -f _CoqProject -o Makefile && make -j4 >/dev/null',shell=True,cwd=BASE,check=True)
def deps():
    out=subprocess.run('coqdep -Q theories Verif theories/*.v',shell=True,cwd=BASE,capture_output=True,text=True).stdout
    d={}
    for l in out.split('\n'):
        m=re.match(r'theories/(\w+)\.vo .*?:(.*)',l)
        if m: d[m.group(1)]=[x for x in re.findall(r'theories/(\w+)\.vo\b',m.group(2)) if x!=m.group(1)]
    return d
def order(d,start):
    rd={}
    for a,bs in d.items():
        for b in bs: rd.setdefault(b,set()).add(a)
    aff=set([start]); st=[start]
    while st:
        x=st.pop()
        for y in rd.get(x,()):
            if y not in aff: aff.add(y); st.append(y)
    res=[]; seen=set()
    def visit(x):
        if x in seen: return
        seen.add(x)
        for b in d.get(x,[]):
            if b in aff: visit(b)
        res.append(x)
    if os.environ.get('EARLY'):
        # property files with few affected dependencies first; see run1
        size={x:len(closure(d,[x])&aff) for x in aff}
        for x in sorted(aff,key=lambda x:(not x.startswith('Props'),size[x],x)): visit(x)
    else:
        for x in sorted(aff): visit(x)
    return res
def admit(path,line):
    """admit the proof containing 1-based line; returns name or None"""
    L=open(path).read().split('\n')
    i=line-1
    h=None; j=i
    while j>=0:
        m=HEAD.match(L[j])
        if m: h=j; name=m.group(1); break
        j-=1
    if h is None: return None
    # find 'Proof' between h and end
    k=h
    text='\n'.join(L[h:])
    mp=re.search(r'\bProof\b',text)
    mq=re.search(r'\b(Qed|Defined)\.',text)
    if not mp or not mq or mp.start()>mq.start(): return None
    lp=text[:mp.start()].count('\n'); 
    if h+lp>i: return ('STATEMENT',name)
    new=text[:mp.start()]+'Proof. Admitted.'+text[mq.end():]
    # keep the number of lines
    removed=text[mp.start():mq.end()].count('\n')
    new=text[:mp.start()]+'Proof. Admitted.'+'\n'*removed+text[mq.end():]
    open(path,'w').write('\n'.join(L[:h])+('\n' if h else '')+new)
    return name
NARROW={'Time':['PropsTime'],'Freq':['PropsFreq'],'FreqDim':['PropsFreq'],'Axis':['PropsAxis'],'Vrts':['PropsPersist'],'Persist':['PropsPersist'],
 'PyBase':['PropsWindow','PropsArrays','PropsIndex','PropsTime'],'Spectral':['PropsSpectral'],'Audio':['PropsNodes'],'Midi':['PropsNodes']}
def closure(D,targets):
    seen=set(); st=list(targets)
    while st:
        x=st.pop()
        if x in seen: continue
        seen.add(x); st+=D.get(x,[])
    return seen
def run(mut,wd,D,maxadm=40):
    stem=mut['file'][:-2]
    if stem in NARROW:
        r=run1(mut,wd,D,closure(D,NARROW[stem]),maxadm); r['scope']=NARROW[stem]
        if r['status']!='survived': return r
    return run1(mut,wd,D,None,maxadm)
def run1(mut,wd,D,only,maxadm=40):
    if os.path.exists(wd): shutil.rmtree(wd)
    subprocess.run(['cp','-a',BASE,wd],check=True)
    p=f"{wd}/theories/{mut['file']}"
    s=open(p).read()
    md=re.search(r'^\s*(?:Local\s+)?(?:Definition|Fixpoint|Program Definition|Record|Inductive|with)\s+'+re.escape(mut['def'])+r"(?![\w'])",s,re.M)
    lo,hi=0,len(s)
    if md and 'nth' not in mut:
        lo=md.start(); me=re.search(r'\.\s*\n',s[md.end():]); hi=md.end()+me.end() if me else len(s)
    body=s[lo:hi]
    n=body.count(mut['old'])
    if n==0 or (n>1 and 'nth' not in mut): return {'status':'bad-edit','count':n}
    if 'nth' in mut:
        pos=-1
        for _ in range(mut['nth']): pos=s.index(mut['old'],pos+1)
        s=s[:pos]+mut['new']+s[pos+len(mut['old']):]
    else: s=s[:lo]+body.replace(mut['old'],mut['new'])+s[hi:]
    open(p,'w').write(s)
    admitted=[]; failed=[]; broken=[]; names=set()
    for f in order(D,mut['file'][:-2]):
        if only is not None and f not in only: continue
        if any(b in broken for b in D.get(f,[])):
            broken.append(f); continue
        # EARLY=1: one failed property file is enough
        if failed and os.environ.get('EARLY'): break
        while True:
            try:
                r=subprocess.run(['coqc','-q','-set','Default Timeout=90','-Q','.','Verif',f+'.v'],cwd=wd+'/theories',capture_output=True,text=True,timeout=900)
            except subprocess.TimeoutExpired:
                broken.append(f); admitted.append(f'{f}: whole file timed out'); break
            if r.returncode==0:
                if f.startswith('Props'):
                    order_=re.findall(r'Print Assumptions (\w+)\.',open(f'{wd}/theories/{f}.v').read())
                    blocks=re.split(r'(?m)^(?=Closed under the global context|Axioms:)',r.stdout)[1:]
                    for nme,b in zip(order_,blocks):
                        ax=set(x.split('.')[-1] for x in re.findall(r'(?m)^([A-Za-z_0-9\'.]+)\s*(?::|$)',b))
                        if ax&names: failed.append(nme)
                break
            m=re.search(r'File "\./?(\w+)\.v", line (\d+)',r.stderr)
            if not m: broken.append(f); admitted.append(f'{f}: {r.stderr[-200:]}'); break
            res=admit(f'{wd}/theories/{f}.v',int(m.group(2))) if len(admitted)<maxadm else None
            if res is None or isinstance(res,tuple):
                admitted.append(f'{f}: {res} {r.stderr[-300:]}'); broken.append(f); break
            admitted.append(f'{f}.{res}'); names.add(res)
    st='survived' if not failed and not broken else 'killed'
    if any(b for b in broken): st='broken' if not failed else 'killed+broken'
    return {'status':st,'failed':failed,'admitted':admitted,'broken':broken}
def main():
    if sys.argv[1]=='setup': setup(); return
    muts=[json.loads(l) for l in open(sys.argv[1]) if l.strip()]
    done=set()
    if os.path.exists(sys.argv[2]): done={json.loads(l)['id'] for l in open(sys.argv[2])}
    D=deps(); q=queue.Queue()
    for m in muts:
        if m['id'] not in done: q.put(m)
    lock=threading.Lock()
    def work(w):
        while True:
            try: m=q.get_nowait()
            except queue.Empty: return
            try: r=run(m,os.path.dirname(BASE).replace('/tmp/base','/tmp/mut')+f'{w}',D)
            except Exception as e: r={'status':'exception','why':repr(e)}
            with lock:
                open(sys.argv[2],'a').write(json.dumps({**m,**r})+'\n')
                print(m['id'],r['status'],r.get('failed',[])[:12],[a for a in r.get('admitted',[])][:6],r.get('broken'),flush=True)
    ts=[threading.Thread(target=work,args=(i,)) for i in range(int(sys.argv[3]) if len(sys.argv)>3 else 4)]
    [t.start() for t in ts]; [t.join() for t in ts]
main()
