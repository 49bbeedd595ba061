"""Collects what Print Assumptions says for each theorem of the manifest, as a markdown table by set of axioms.
Run after a build; uses a scratch file outside of /verif.  Prints to stdout."""
import json,subprocess,re,collections,os
m=json.load(open('/verif/MANIFEST.json'))
ths=[t for c in m['claims'] for t in c['theorems']]
import glob
where={}
for f in glob.glob('/verif/rocq/theories/*Props.v'):
    for l in open(f):
        r=re.match(r'Theorem (\w+)',l)
        if r: where[r.group(1)]=os.path.basename(f)[:-2]
d='/tmp/axioms'; os.makedirs(d,exist_ok=True)
mods=sorted({where[t] for t in ths})
with open(d+'/ax.v','w') as o:
    o.write('From Verif Require '+' '.join(mods)+'.\n')
    for t in ths: o.write('Goal True. idtac "THM %s". Abort.\nPrint Assumptions %s.%s.\n'%(t,where[t],t))
out=subprocess.run(['coqc','-w','-all','-Q','/verif/rocq/theories','Verif','ax.v'],cwd=d,capture_output=True,text=True)
cur=None;ax=collections.OrderedDict()
for l in (out.stdout).splitlines():
    r=re.match(r'THM (\w+)',l)
    if r: cur=r.group(1); ax[cur]=[]; continue
    r=re.match(r'([A-Za-z_][\w.]*)\s*(:.*)?$',l)
    if cur and r and not l.startswith('Closed') and l!='Axioms:' : ax[cur].append(r.group(1))
if len(ax)!=len(ths): print('ERROR',len(ax),len(ths),out.stderr[-500:])
g=collections.OrderedDict()
for t,a in ax.items(): g.setdefault(tuple(sorted(set(a))),[]).append(t)
for a,ts in sorted(g.items(),key=lambda x:len(x[0])):
    print('* **'+(', '.join('`%s`'%x for x in a) if a else 'no axioms (closed under the global context)')+'** (%d): '%len(ts)+', '.join(ts)+'\n')
