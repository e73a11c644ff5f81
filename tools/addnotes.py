import json,sys
p='/verif/tools/notes.json'
d=json.load(open(p))
d.update(json.load(sys.stdin))
json.dump(d,open(p,'w'),indent=0)
