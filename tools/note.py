#!/usr/bin/env python3
# note.py C11 proved "text"
import json,sys
p='/verif/tools/notes.json';n=json.load(open(p))
n[sys.argv[1]]={"status":sys.argv[2],"note":sys.argv[3] if len(sys.argv)>3 else ""}
json.dump(n,open(p,'w'),indent=1)
