"""Rewrites the generated parts of DESIGN.md: the list of partial properties and the axioms of each theorem (after a build)."""
import subprocess,json
d=open('/verif/DESIGN.md').read()
def put(d,tag,txt):
    a,b='<!-- %s -->\n'%tag,'<!-- end %s -->\n'%tag
    i=d.index(a)+len(a); j=d.index(b)
    return d[:i]+txt+d[j:]
ax=subprocess.run(['python3','/verif/tools/axioms.py'],capture_output=True,text=True).stdout
assert 'ERROR' not in ax, ax[:500]
d=put(d,'axioms',ax)
m=json.load(open('/verif/MANIFEST.json'))
p={json.loads(l)['id']:json.loads(l) for l in open('/verif/properties.jsonl')}
d=put(d,'partial',''.join('* **%s %s** - %s\n'%(c['property'],p[c['property']]['title'],c['note']) for c in m['claims'] if c['status']=='partial') or '(none at present)\n')
open('/verif/DESIGN.md','w').write(d)
