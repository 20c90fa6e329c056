#!/usr/bin/env python3
# writes /verif/ASSUMPTIONS.md: what Print Assumptions lists for each theorem of MANIFEST.json
import json,re,subprocess,glob,os
T='/verif/rocq/theories'
where={}
for f in glob.glob(T+'/Props_*.v'):
    for m in re.finditer(r'^\s*Theorem\s+(C\d+_\w+)',open(f).read(),re.M): where[m.group(1)]=os.path.basename(f)[:-2]
names=sorted(where)
mods=sorted(set(where.values()))
src='\n'.join('From Verif Require %s.'%m for m in mods)+'\n'
for n in names: src+='Goal True. idtac "@@ %s". exact I. Qed.\nPrint Assumptions Verif.%s.%s.\n'%(n,where[n],n)
os.makedirs('/tmp/asm',exist_ok=True)
open('/tmp/asm/asm.v','w').write(src)
out=subprocess.run(['coqc','-Q',T,'Verif','/tmp/asm/asm.v'],capture_output=True,text=True)
print(out.stderr[-500:])
groups={}
for blk in re.split(r'^@@ ',out.stdout,flags=re.M)[1:]:
    n,rest=blk.split('\n',1)
    rest=rest.strip()
    if 'Closed under' in rest: key=('closed under the global context',)
    else:
        key=tuple(sorted(set(re.findall(r'^([A-Za-z_][\w.\']*)\s*(?::|$)',rest,re.M))-{'Axioms'}))
    groups.setdefault(key,[]).append(n)
with open('/verif/ASSUMPTIONS.md','w') as f:
    f.write('# Print Assumptions for every property theorem\n\nGenerated by tools/assumptions.py.\n')
    for k,v in sorted(groups.items(),key=lambda kv:len(kv[1])):
        f.write('\n## '+', '.join('`%s`'%x for x in k)+'\n\n'+', '.join('`%s`'%x for x in v)+'\n')
print({k:len(v) for k,v in groups.items()})
