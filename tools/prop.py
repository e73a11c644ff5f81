"""usage: prop.py < json-lines : insert or update lines of properties.jsonl by id (partial updates allowed)"""
import json, sys, os
p = os.path.join(os.path.dirname(os.path.dirname(os.path.abspath(__file__))), 'properties.jsonl')
d = [json.loads(l) for l in open(p)]
ix = {x['id']: x for x in d}
for l in sys.stdin:
    l = l.strip()
    if not l: continue
    u = json.loads(l)
    if u['id'] in ix: ix[u['id']].update(u)
    else:
        assert all(k in u for k in ('title','statement','quantifier','why_tests_cant','anchors')), u
        d.append(u); ix[u['id']] = u
open(p, 'w').write(''.join(json.dumps(x) + '\n' for x in d))
