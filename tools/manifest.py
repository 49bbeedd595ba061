# regenerate MANIFEST.json from notes + theorem names found in *Props.v
import json,re,glob
notes=json.load(open('/verif/tools/notes.json'))
th={}
for f in sorted(glob.glob('/verif/rocq/theories/*Props.v')):
    for m in re.finditer(r'^Theorem\s+(C\d\d+\w*)',open(f).read(),re.M):
        th.setdefault(re.match(r'C\d+',m.group(1)).group(0),[]).append(m.group(1))
claims=[]
for l in open('/verif/properties.jsonl'):
    i=json.loads(l)['id']
    if i in th:
        st,n=notes.get(i,['proved',''])
        claims.append(dict(property=i,status=st,theorems=th[i],note=n))
    elif i in notes:
        claims.append(dict(property=i,status=notes[i][0],theorems=[],note=notes[i][1]))
    else: print('missing',i)
json.dump({"claims":claims},open('/verif/MANIFEST.json','w'),indent=1)
print(len(claims),sum(len(c['theorems']) for c in claims))
