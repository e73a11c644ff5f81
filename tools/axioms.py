#!/usr/bin/env python3
"""Recompile every Props*.v (the rest must be built), read what Print Assumptions says for each
theorem and update the list in DESIGN.md: theorems grouped by the set of axioms they rest on."""
import re,subprocess,glob,os
T='/verif/rocq/theories'
groups={}
for f in sorted(glob.glob(T+'/Props*.v')):
    names=re.findall(r'^Print Assumptions (\w+)\.',open(f).read(),re.M)
    out=subprocess.run(['coqc','-Q','.','Verif',os.path.basename(f)],cwd=T,capture_output=True,text=True).stdout
    blocks=[]; cur=None
    for l in out.split('\n'):
        if l.startswith('Closed under the global context'): blocks.append(set()); cur=None
        elif l.startswith('Axioms:'): cur=set(); blocks.append(cur)
        elif cur is not None:
            m=re.match(r'^([A-Za-z_][\w.\']*)(\s*:|\s*$)',l)
            if m: cur.add(m.group(1))
    assert len(blocks)==len(names),(f,len(blocks),len(names))
    for n,b in zip(names,blocks): groups.setdefault(tuple(sorted(b)),[]).append(n)
o=[]
for g in sorted(groups,key=len):
    o.append('\n**'+('No axioms (closed under the global context)' if not g else ', '.join('`%s`'%x for x in g))+'** — %d theorems: '%len(groups[g]))
    o.append(', '.join(sorted(groups[g]))+'\n')
p='/verif/DESIGN.md'; s=open(p).read()
a,b='<!-- axioms begin -->','<!-- axioms end -->'
s=s[:s.index(a)+len(a)]+'\n'+'\n'.join(o)+'\n'+s[s.index(b):]
open(p,'w').write(s)
print({g:len(v) for g,v in groups.items()})
