#!/usr/bin/env python3
"""Regenerate MANIFEST.json from Props_*.v and the notes below."""
import re,glob,json
notes=json.load(open('/verif/tools/notes.json'))
th={}
for f in sorted(glob.glob('/verif/rocq/theories/Props_*.v')):
    for m in re.finditer(r'^Theorem (C(\d\d)_\w+)',open(f).read(),re.M):
        th.setdefault('C'+m.group(2),[]).append(m.group(1))
claims=[]
for k in sorted(th):
    n=notes.get(k,{})
    st=n.get('status')
    if st is None:
        st='partial' if any(t.endswith(('_partial','_refuted')) for t in th[k]) else 'proved'
    claims.append({"property":k,"status":st,"theorems":th[k],"note":n.get('note','')})
open('/verif/MANIFEST.json','w').write('{"claims":[\n'+',\n'.join(json.dumps(c) for c in claims)+'\n]}\n')
print(len(claims),'claims',sum(len(c['theorems']) for c in claims),'theorems')
