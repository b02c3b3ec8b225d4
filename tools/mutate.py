#!/usr/bin/env python3
"""Seeded-bug test: usage mutate.py MUTANTS.json.  Each mutant: {def, file, old, new, edit, claim}.
Copies rocq/ to a scratch directory, applies the edit, rebuilds with make -k, appends one line to seeded/LOG.jsonl.
A mutant may have "targets": only these files are rebuilt, and the build stops at the first failure.
Environment: MUT_BASE (built copy to start from), MUT_DIR (scratch directory), MUT_TARGETS (make targets; all by default)."""
import json, sys, subprocess, re, os, shutil
V='/verif'; S=os.environ.get('MUT_DIR','/tmp/mut')
B=os.environ.get('MUT_BASE',V+'/rocq')  # a built copy of rocq/ to start from
muts=json.load(open(sys.argv[1]))
def theorem_at(path, line):
    name=None
    for i,l in enumerate(open(path),1):
        if i>line: break
        m=re.match(r'\s*(Theorem|Lemma|Example|Corollary|Definition|Fixpoint|Local Lemma)\s+(\S+)',l)
        if m: name=m.group(2)
    return name
os.makedirs(S,exist_ok=True)
for m in muts:
    subprocess.run(['rsync','-a','--delete',B+'/',S+'/rocq/'],check=True) if shutil.which('rsync') else subprocess.run(f'rm -rf {S}/rocq && cp -a {B} {S}/rocq',shell=True,check=True)
    p=f'{S}/rocq/theories/{m["file"]}'
    t=open(p).read()
    assert t.count(m['old'])==1, (m['def'], t.count(m['old']))
    open(p,'w').write(t.replace(m['old'],m['new']))
    subprocess.run('coq_makefile -f _CoqProject -o Makefile',shell=True,cwd=S+'/rocq',check=True,stdout=subprocess.DEVNULL)
    tg=m.get('targets'); tgs=tg or os.environ.get('MUT_TARGETS','')
    r=subprocess.run('timeout 2400 nice make '+('-j1 ' if tg else '-k -j2 ')+tgs+' 2>&1',shell=True,cwd=S+'/rocq',capture_output=True,text=True)
    failed=[]
    for f,l in re.findall(r'File "\./(theories/\w+\.v)", line (\d+), characters [^\n]*\n(?:Error|In environment|Unable)',r.stdout):
        n=theorem_at(f'{S}/rocq/{f}',int(l)); failed.append(f'{os.path.basename(f)}:{n}')
    notbuilt=[]
    for f in open(B+'/_CoqProject').read().split():
        if f.endswith('Props.v') and (f+'o' in (tgs or f+'o')) and not (os.path.exists(f'{S}/rocq/{f}o') and os.path.getmtime(f'{S}/rocq/{f}o')>=os.path.getmtime(p)-0):
            b=os.path.basename(f)
            # is it stale because of a failed dependency?
            q=subprocess.run(f'make -q {f}o',shell=True,cwd=S+'/rocq',capture_output=True)
            if q.returncode!=0:
                notbuilt += re.findall(r'^Theorem (C\d\d_\w+)',open(f'{S}/rocq/{f}').read(),re.M)
    e={'definition':m['def'],'file':m['file'],'edit':m['edit'],'claim':m['claim'],'theorems_failed':failed,'not_rebuilt_because_of_failure':notbuilt,'survived':r.returncode==0,'tightened':m.get('tightened',[])}
    open(V+'/seeded/LOG.jsonl','a').write(json.dumps(e)+'\n')
    print(m['def'],'SURVIVED' if r.returncode==0 else 'killed',failed,flush=True)
