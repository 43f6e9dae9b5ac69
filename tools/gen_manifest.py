#!/usr/bin/env python3
# Regenerates /verif/MANIFEST.json: the theorem names are read off the Props*.v files (prefix C01_, C02_, ...),
# the status follows from the suffixes unless NOTES overrides it.
import json,re,glob,os
root=os.path.join(os.path.dirname(os.path.abspath(__file__)),'..')
ids=[json.loads(l)['id'] for l in open(root+'/properties.jsonl')]
th={i:[] for i in ids}
for f in sorted(glob.glob(root+'/rocq/theories/Props*.v')):
    for m in re.finditer(r'^Theorem (C\d\d+)_(\w+)',open(f).read(),re.M):
        th[m.group(1)].append(m.group(1)+'_'+m.group(2))
exec(open(root+'/tools/notes.py').read())
out=[]
for i in ids:
    t=th[i]
    if not t: st='partial' if i not in NA else 'not_applicable'
    elif any(x.endswith('_refuted') or x.endswith('_partial') for x in t): st='partial'
    else: st='proved'
    st=STATUS.get(i,st)
    out.append(dict(property=i,status=st,theorems=t,note=NOTES.get(i,'' if t else 'not modelled yet')))
json.dump(dict(claims=out),open(root+'/MANIFEST.json','w'),indent=1)
print({s:sum(1 for o in out if o['status']==s) for s in ('proved','partial','not_applicable')}, [o['property'] for o in out if not o['theorems']])
