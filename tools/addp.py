import json,sys
# usage: addp.py file.json : {"props":[...], "notes":{...}, "files":[...]}
d=json.load(open(sys.argv[1]))
ids={json.loads(l)["id"] for l in open('/verif/properties.jsonl') if l.strip()}
with open('/verif/properties.jsonl','a') as f:
    for p in d.get("props",[]):
        if p["id"] not in ids: f.write(json.dumps(p)+'\n')
n=json.load(open('/verif/tools/notes.json')); n.update(d.get("notes",{})); json.dump(n,open('/verif/tools/notes.json','w'),indent=1)
cp=open('/verif/rocq/_CoqProject').read()
for x in d.get("files",[]):
    if f"theories/{x}.v\n" not in cp: cp+=f"theories/{x}.v\n"
open('/verif/rocq/_CoqProject','w').write(cp)
