#!/usr/bin/env python3
"""Write MANIFEST.json: theorem names come from theories/Props, status and notes from tools/notes.json."""
import json,re,glob
names={}
for f in sorted(glob.glob('/verif/rocq/theories/Props/*.v')):
    mods=f.split('theories/')[1][:-2].replace('/','.')
    for n in re.findall(r'^\s*Theorem (C(\d\d)_\w+)',open(f).read(),re.M):
        names.setdefault('C'+n[1],[]).append(n[0])
notes=json.load(open('/verif/tools/notes.json'))
claims=[]
for k in sorted(names):
    s,n=notes[k]
    claims.append({'property':k,'status':s,'theorems':names[k],'note':n})
for k in sorted(set(notes)-set(names)): print('note without theorem',k)
open('/verif/MANIFEST.json','w').write(json.dumps({'claims':claims},indent=1)+'\n')
print(len(claims),sum(len(c['theorems']) for c in claims))
