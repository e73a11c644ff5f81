"""Write a Props file: stdin is the header up to a line '---', then lines
'(* comment *)' and 'Cnn_name = lemma'.  The statement of each theorem is the
type Coq prints for the lemma, so that it can be read without its proof file; '|| a => b' rewrites the text
where Coq's output does not parse back."""
import subprocess, sys, re
out = sys.argv[1]
text = sys.stdin.read()
head, body = text.split('\n---\n', 1)
items = []
for line in body.split('\n'):
    m = re.match(r'^(C\d\d\w*)\s*=\s*(\S+)((?:\s*\|\|.*=>.*)*)$', line)
    if m: items.append(('thm', m.group(1), m.group(2), [tuple(x.strip() for x in r.split('=>')) for r in m.group(3).split('||') if r.strip()]))
    else: items.append(('txt', line))
names = [i[2] for i in items if i[0] == 'thm']
script = head + '\nSet Printing Width 105.\nSet Printing Depth 500.\n' + ''.join('Check (@%s).\n' % n for n in names)
import tempfile, os
td = tempfile.mkdtemp()
f = os.path.join(td, 'q.v'); open(f, 'w').write(script)
r = subprocess.run(['coqc', '-Q', '/verif/rocq/theories', 'Verif', f], capture_output=True, text=True)
if r.returncode: sys.exit(r.stdout + r.stderr)
chunks = re.split(r'\n(?=\S)', '\n' + r.stdout)
types = []
for c in chunks:
    c = c.strip('\n')
    if not c.strip(): continue
    # "name\n     : type"
    m = re.match(r'^\S+\s*:\s*(.*)$', c, re.S)
    if m is None: sys.exit('cannot parse: ' + c)
    types.append(re.sub(r'\n {5,7}', '\n  ', m.group(1)).rstrip())
assert len(types) == len(names), (len(types), len(names))
it = iter(types)
res = head + '\n'
for i in items:
    if i[0] == 'txt': res += i[1] + '\n'
    else:
        t = next(it)
        for a, b in i[3]:
            assert a in t, (i[1], a)
            t = t.replace(a, b)
        res += 'Theorem %s :\n  %s.\nProof. exact (@%s). Qed.\nPrint Assumptions %s.\n' % (i[1], t, i[2], i[1])
open(out, 'w').write(res)
