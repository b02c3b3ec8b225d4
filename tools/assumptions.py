#!/usr/bin/env python3
"""Writes ASSUMPTIONS.md: what Print Assumptions lists for every theorem of MANIFEST.json.  Needs a built rocq/ directory."""
import json,re,subprocess,os,glob
root=os.path.dirname(os.path.dirname(os.path.abspath(__file__)))
m=json.load(open(root+'/MANIFEST.json'))
where={}
for f in glob.glob(root+'/rocq/theories/*Props.v'):
    for t in re.findall(r'^Theorem (C\d\d_\w+)',open(f).read(),re.M): where[t]=os.path.basename(f)[:-2]
ths=[(c['property'],t) for c in m['claims'] for t in c['theorems']]
src='From Coq Require Import NArith.\n'+''.join('From Verif Require %s.\n'%x for x in sorted(set(where.values())))
for i,(p,t) in enumerate(ths): src+='Check %d%%N. Print Assumptions Verif.%s.%s.\n'%(900000+i,where[t],t)
open('/tmp/assum.v','w').write(src)
out=subprocess.run(['coqc','-Q',root+'/rocq/theories','Verif','/tmp/assum.v'],capture_output=True,text=True)
assert out.returncode==0,out.stderr[-2000:]
parts=re.split(r'^(9\d{5})%N\s*\n\s*: N$',out.stdout,flags=re.M)
res={}
for k in range(1,len(parts),2):
    body=parts[k+1]
    ax=sorted(set(re.findall(r'^([A-Za-z][\w.]*)\s*:',body,re.M))-{'Axioms'})
    ax+= [x for x in re.findall(r'^([A-Za-z][\w.]*)\s*$',body,re.M) if '.' in x]
    res[int(parts[k])-900000]=(sorted(set(ax)),'Closed under the global context' in body)
assert len(res)==len(ths),(len(res),len(ths))
groups={}
lines=[]
for i,(p,t) in enumerate(ths):
    ax,closed=res[i]; assert closed==(not ax),(t,ax,closed)
    lines.append((p,t,ax))
names=sorted({a for _,_,ax in lines for a in ax})
with open(root+'/ASSUMPTIONS.md','w') as f:
    f.write('# Print Assumptions for every theorem\n\nGenerated by tools/assumptions.py from the compiled files.  All axioms are of the standard library:\n\n')
    for i,a in enumerate(names): f.write('* A%d: `%s`\n'%(i+1,a))
    f.write('\n| property | theorem | file | axioms |\n|---|---|---|---|\n')
    for p,t,ax in lines: f.write('| %s | %s | %s.v | %s |\n'%(p,t,where[t],', '.join('A%d'%(names.index(a)+1) for a in ax) or 'none'))
print(len(lines),names,sum(1 for x in lines if not x[2]))
