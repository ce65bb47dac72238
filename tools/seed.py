#!/usr/bin/env python3
"""Edit one definition of the model in a scratch copy, rebuild, log what fails.
usage: seed.py seeds.json   (list of {file, definition, old, new, edit, claim})"""
import json,os,re,subprocess,sys,shutil
seeds=json.load(open(sys.argv[1]))
W=sys.argv[2] if len(sys.argv)>2 else '/tmp/seed'
def lemma_at(path,line):
    name=None
    for i,l in enumerate(open(path),1):
        if i>line: break
        m=re.match(r'\s*(?:Local )?(?:Lemma|Theorem|Corollary|Example|Definition|Fixpoint|Fact)\s+(\w+)',l)
        if m: name=m.group(1)
    return name
def deps(d):
    out=subprocess.run('coqdep -Q theories Verif theories/*.v',shell=True,cwd=d,capture_output=True,text=True).stdout
    g={}
    for l in out.splitlines():
        m=re.match(r'(\S+?)\.vo\b.*?:\s*(.*)',l)
        if m: g[m.group(1)]=[x[:-3] for x in m.group(2).split() if x.endswith('.vo')]
    return g
for s in seeds:
    shutil.rmtree(W,ignore_errors=True); subprocess.run(['cp','-a',os.environ.get('SRC','/verif/rocq'),W],check=True)
    p=W+'/theories/'+s['file']
    t=open(p).read()
    n=s.get('count',1)
    if t.count(s['old'])!=n:
        print('BAD SEED',s['definition'],t.count(s['old'])); continue
    open(p,'w').write(t.replace(s['old'],s['new']))
    subprocess.run('coq_makefile -f _CoqProject -o Makefile >/dev/null 2>&1',shell=True,cwd=W)
    r=subprocess.run('timeout 3000 make -k -j%s'%os.environ.get('J','2'),shell=True,cwd=W,capture_output=True,text=True)
    fails=[]; files=set()
    for m in re.finditer(r'File "\./(theories/\w+)\.v", line (\d+), characters[^\n]*\nError',r.stderr+r.stdout):
        files.add(m.group(1)); fails.append(lemma_at(W+'/'+m.group(1)+'.v',int(m.group(2))))
    g=deps(W)
    bad=set(files); ch=True
    while ch:
        ch=False
        for f,ds in g.items():
            if f not in bad and any(d in bad for d in ds): bad.add(f); ch=True
    props=sorted(os.path.basename(f) for f in bad if 'Props_' in f)
    rec={"definition":s['file'].replace('.v','')+'.'+s['definition'],"edit":s.get('edit') or ('%s => %s'%(s['old'],s['new'])),"claim":s['claim'],
         "failed":sorted(set(x for x in fails if x)),"property_files_blocked":props,"tightened":s.get('tightened',[])}
    open('/verif/seeded/LOG.jsonl','a').write(json.dumps(rec)+'\n')
    print(('caught ' if fails else 'SURVIVED ')+s['definition'],'|',rec['edit'][:70],'|',rec['failed'],props,flush=True)
