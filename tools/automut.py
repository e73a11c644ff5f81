#!/usr/bin/env python3
"""Generic mutants of the definitions that no attempt in seeded/LOG.jsonl has edited.
usage: automut.py OUT.jsonl PREFIX PER_DEFINITION SEED"""
import glob, json, random, re, sys
out,prefix,per,seed=sys.argv[1],sys.argv[2],int(sys.argv[3]),int(sys.argv[4])
random.seed(seed)
done={d['definition'] for d in map(json.loads,open('/verif/seeded/LOG.jsonl')) if d.get('definition')}
OPS=[(r' \+ ',[' - ']),(r' - ',[' + ']),(r' \* ',[' + ']),(r' <\? ',[' <=? ']),(r' <=\? ',[' <? ']),(r' =\? ',[' <=? ']),
 (r' / ',[' * ']),(r'\bmax\b',['min']),(r'\bmin\b',['max']),(r'\bfst\b',['snd']),(r'\bsnd\b',['fst']),(r'\btrue\b',['false']),(r'\bfalse\b',['true']),
 (r'\bnegb ',['']),(r'&&',['||']),(r'\|\|',['&&']),(r'\bfirstn\b',['skipn']),(r'\bskipn\b',['firstn']),(r'\bNat\.eqb\b',['Nat.leb']),(r'\bNat\.leb\b',['Nat.ltb']),(r'\bNat\.ltb\b',['Nat.leb']),
 (r'\bZ\.eqb\b',['Z.leb']),(r'\bZ\.leb\b',['Z.ltb']),(r'\bZ\.ltb\b',['Z.leb']),(r'\bRlt_dec\b',['Rle_dec']),(r'\bRle_dec\b',['Rlt_dec']),(r'\bcos\b',['sin']),(r'\bsin\b',['cos']),
 (r'\bforallb\b',['existsb']),(r'\bexistsb\b',['forallb']),(r'\brev\b ',['']),(r'\bsqrt\b',['']),(r'\bRabs\b',['']),(r'\bS (?=[a-z(])',['']),(r'\b0%nat',['1%nat']),(r'\b1%nat',['2%nat']),
 (r'(?<![\w.%])0(?![\w.%])',['1']),(r'(?<![\w.%])1(?![\w.%])',['2']),(r'(?<![\w.%])2(?![\w.%])',['3']),(r'(?<![\w.%])([3-9]|\d\d+)(?![\w.%])',['+1']),
 (r'\bTypeError\b',['KeyError']),(r'\bValueError\b',['KeyError']),(r'\bIndexError\b',['KeyError']),(r'\bKeyError\b',['ValueError']),(r'\bRuntimeError\b',['KeyError']),(r'\bFloor\b',['Ceil']),
 (r'\bmap \w+ ',['']),(r' :: ',[' :: tl ']),(r'\bSome \w+(?=\)| |$)',['None']),(r'\b(\w+) \+\+ (\w+)\b',['swap']),(r'\bstart\b',['stop']),(r'\bstop\b',['start']),(r'\bfilter\b',['filter_not'])]
res=[]
for f in sorted(glob.glob('/verif/rocq/theories/*.v')):
    b=f.split('/')[-1]
    if b.startswith('Props') or 'Proofs' in b or b in('PyFacts.v',): continue
    s=open(f).read()
    for m in re.finditer(r'^\s*(?:Definition|Fixpoint)\s+([\w\']+)',s,re.M):
        name=m.group(1)
        if b+':'+name in done or s.count(name)==0: continue
        if len(re.findall(r'(?:Definition|Fixpoint)\s+'+re.escape(name)+r"(?![\w'])",s))>1: continue
        me=re.search(r'\.\s*\n',s[m.end():]); end=m.end()+(me.end() if me else 0)
        body=s[m.start():end]
        k=body.find(':=')
        if k<0: continue
        cands=[]
        code=re.sub(r'\(\*.*?\*\)',lambda q:' '*len(q.group(0)),body,flags=re.S)
        code=re.sub(r'"[^"]*"',lambda q:'"'*len(q.group(0)),code)
        for pat,news in OPS:
            for q in re.finditer(pat,code[k+2:]):
                a,z=k+2+q.start(),k+2+q.end(); old=body[a:z]
                for new in news:
                    if new=='+1': new=str(int(old)+1)
                    if new=='swap': new=f'{q.group(2)} ++ {q.group(1)}'
                    if new==' :: tl ' or new=='filter_not': continue
                    # widen until unique
                    l,r=a,z
                    while body.count(body[l:r])>1 and (l>0 or r<len(body)):
                        l=max(0,l-4); r=min(len(body),r+4)
                    if body.count(body[l:r])!=1: continue
                    cands.append((body[l:r],body[l:a]+new+body[z:r],pat))
        random.shuffle(cands)
        seenpat=set(); n=0
        for o,nw,pat in cands:
            if pat in seenpat: continue
            seenpat.add(pat)
            res.append(dict(id=f'{prefix}{len(res)+1}',file=b,**{'def':name},old=o,new=nw,claim='what '+name+' computes',breaks=''))
            n+=1
            if n==per: break
with open(out,'w') as fo:
    for r in res: fo.write(json.dumps(r)+'\n')
print(len(res),len({(r['file'],r['def']) for r in res}))
