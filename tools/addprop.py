#!/usr/bin/env python3
# addprop.py FILE.json : {"prop": {...}, "row": "...", "findings": [...], "status": "...", "note": "..."} or a list of these
import json,sys,subprocess
D=json.load(open(sys.argv[1]))
for d in (D if isinstance(D,list) else [D]):
    with open('/verif/properties.jsonl','a') as f: f.write(json.dumps(d["prop"])+'\n')
    p='/verif/DESIGN.md';s=open(p).read()
    i=s.rindex('\n| C'); j=s.index('\n',i+1)+1
    s=s[:j]+"| %s | %s |\n"%(d["prop"]["id"],d["row"])+s[j:]
    s=s.rstrip('\n')+'\n'+''.join("* %s\n"%x for x in d.get("findings",[]))
    open(p,'w').write(s)
    subprocess.check_call(['python3','/verif/tools/note.py',d["prop"]["id"],d["status"],d["note"]])
