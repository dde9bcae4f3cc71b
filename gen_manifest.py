#!/usr/bin/env python3
# Regenerates MANIFEST.json from the theorem names Cnn_... found in rocq/theories/Properties_*.v
# and the status/notes below.
import re,glob,json
from notes import NOTES
props=[json.loads(l)['id'] for l in open('properties.jsonl')]
th={}
for f in sorted(glob.glob('rocq/theories/Properties_*.v')):
    for m in re.finditer(r'^Theorem (C(\d\d)_\w+)',open(f).read(),re.M):
        th.setdefault('C'+m.group(2),[]).append(m.group(1))
claims=[]
for p in props:
    if p not in th and p not in NOTES: continue
    st,note=NOTES.get(p,('proved',''))
    claims.append(dict(property=p,status=st,theorems=th.get(p,[]),note=note))
json.dump(dict(claims=claims),open('MANIFEST.json','w'),indent=1)
print(len(claims),'claims; missing:',[p for p in props if p not in th])
