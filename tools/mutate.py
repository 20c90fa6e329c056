#!/usr/bin/env python3
"""mutate.py BATCH.json [dir]: apply each mutation to a scratch copy of /verif/rocq,
rebuild, and append one line per mutation to /verif/seeded/LOG.jsonl.
A mutation: {"file","definition","old","new","claim"}; `old` must occur once."""
import json,sys,os,subprocess,re,shutil
batch=json.load(open(sys.argv[1])); scratch=sys.argv[2] if len(sys.argv)>2 else '/tmp/mut/w'
log='/verif/seeded/LOG.jsonl'
def enclosing(path,line):
    name=None
    for i,l in enumerate(open(path),1):
        if i>line: break
        m=re.match(r'\s*(?:Theorem|Lemma|Example|Corollary|Definition|Fixpoint|Record|Fact)\s+(\S+)',l)
        if m: name=m.group(1)
    return name
for mu in batch:
    if os.path.exists(scratch): shutil.rmtree(scratch)
    os.makedirs(os.path.dirname(scratch),exist_ok=True)
    subprocess.run(['cp','-a','/verif/rocq',scratch],check=True)
    p=f"{scratch}/theories/{mu['file']}"; s=open(p).read()
    if s.count(mu['old'])!=1: print('SKIP',mu['definition'],s.count(mu['old']),mu['old'][:50]); continue
    open(p,'w').write(s.replace(mu['old'],mu['new']))
    r=subprocess.run('make -j2 2>&1',shell=True,cwd=scratch,capture_output=True,text=True,timeout=2400)
    fails=[]
    for m in re.finditer(r'File "\./(theories/\S+\.v)", line (\d+)[^\n]*\n(?!Warning)',r.stdout):
        f=m.group(1); n=enclosing(f"{scratch}/{f}",int(m.group(2)))
        fails.append(f"{os.path.basename(f)}:{n}")
    fails=sorted(set(fails))
    # property files not rebuilt
    vs=[l.strip() for l in open(f'{scratch}/_CoqProject') if l.strip().endswith('.v')]
    blocked=[os.path.basename(v)[:-2] for v in vs if os.path.basename(v).startswith('Props_') and (not os.path.exists(f'{scratch}/{v}o') or os.path.getmtime(f'{scratch}/{v}o')<os.path.getmtime(p)) and v in r.stdout+''.join(fails)]
    nb=[]
    for v in vs:
        b=os.path.basename(v)
        if b.startswith('Props_') :
            q=subprocess.run(['make','-q',v+'o'],cwd=scratch,capture_output=True)
            if q.returncode!=0: nb.append(b[:-2])
    e={"definition":mu['file']+': '+mu['definition'],"edit":f"{mu['old']}  ==>  {mu['new']}","claim":mu['claim'],
       "theorems_failed":fails,"property_files_not_rebuilt":nb,"theorems_tightened":mu.get('tightened',[])}
    if not fails: e["verdict"]="SURVIVED"
    print(('SURVIVED ' if not fails else 'killed   ')+mu['definition'],fails[:4],flush=True)
    open(log,'a').write(json.dumps(e)+'\n')
