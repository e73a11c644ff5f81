#!/usr/bin/env python3
"""stdin JSON: {"topic": [rows], "prop": [rows], "defect": [bullets]}: insert rows in DESIGN.md (each once)."""
import json,sys,re
d=json.load(sys.stdin)
p='/verif/DESIGN.md'
L=open(p).read().split('\n')
# property rows C80+ that strayed into the topic table go after the last property row
stray=[l for l in L[:60] if re.match(r'\| C\d+ \|',l)]
L=[l for l in L if l not in stray]
def have(l): return l in L
last=max(i for i,l in enumerate(L) if re.match(r'\| C\d+ \|',l))
for r in stray+d.get('prop',[]):
    if not have(r):
        last+=1; L.insert(last,r)
i=next(i for i,l in enumerate(L) if l.startswith('| datasets |'))
for r in d.get('topic',[]):
    if not have(r): L.insert(i,r); i+=1
i=next(i for i,l in enumerate(L) if l.startswith('* Datasets: single-threaded'))
for r in d.get('defect',[]):
    if not have(r): L.insert(i,r); i+=1
open(p,'w').write('\n'.join(L))
