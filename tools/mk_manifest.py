"""Generate MANIFEST.json from the theorem names in rocq/theories/Props*.v
(every theorem is named Cnn_...) and the notes below."""
import json, re, glob, os
root = os.path.dirname(os.path.dirname(os.path.abspath(__file__)))
NOTES = json.load(open(os.path.join(root, 'tools', 'notes.json')))
ids = [json.loads(l)['id'] for l in open(os.path.join(root, 'properties.jsonl'))]
thms = {}
for f in sorted(glob.glob(os.path.join(root, 'rocq/theories/Props*.v'))):
    if ('theories/' + os.path.basename(f)) not in open(os.path.join(root, 'rocq/_CoqProject')).read():
        continue
    for m in re.finditer(r'^Theorem\s+(C\d+)_(\w+)', open(f).read(), re.M):
        thms.setdefault(m.group(1), []).append(m.group(1) + '_' + m.group(2))
claims = []
for i in ids:
    n = NOTES.get(i, {})
    t = thms.get(i, [])
    status = n.get('status', 'proved' if t else 'partial')
    if not t and status != 'not_applicable':
        continue
    claims.append({'property': i, 'status': status, 'theorems': t, 'note': n.get('note', '')})
json.dump({'claims': claims}, open(os.path.join(root, 'MANIFEST.json'), 'w'), indent=1)
print(len(claims), 'claims;', [i for i in ids if i not in thms], 'missing')
