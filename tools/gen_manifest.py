#!/usr/bin/env python3
"""Regenerates MANIFEST.json from the theorem names in rocq/theories/Props*.v."""
import json,re,glob,collections
names=collections.defaultdict(list)
for f in sorted(glob.glob('/verif/rocq/theories/Props*.v')):
    for n in re.findall(r'^Theorem (C\d\d\w*)',open(f).read(),re.M):
        for c in re.findall(r'C\d+',n): names[c].append(n)
notes=json.load(open('/verif/tools/notes.json'))
claims=[]
for l in open('/verif/properties.jsonl'):
    p=json.loads(l); i=p['id']; n=notes.get(i,{})
    if not names[i] and n.get('status')!='not_applicable': continue
    part=any(t.endswith('_partial') for t in names[i])
    claims.append(dict(property=i,status=n.get('status','partial' if part else 'proved'),theorems=names[i],note=n.get('note','')))
json.dump(dict(claims=claims),open('/verif/MANIFEST.json','w'),indent=1)
print(len(claims),'claims',[json.loads(l)['id'] for l in open('/verif/properties.jsonl') if not names[json.loads(l)['id']]])
