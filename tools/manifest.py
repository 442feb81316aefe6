#!/usr/bin/env python3
"""Generates MANIFEST.json from tools/claims.txt: lines 'Cxx | status | theorem, theorem | note'.
Properties without a line are omitted."""
import json,os,re
root=os.path.dirname(os.path.dirname(os.path.abspath(__file__)))
src=''
for f in sorted(os.listdir(root+'/rocq/theories')):
    if f.endswith('.v'): src+=open(root+'/rocq/theories/'+f).read()
known=set(re.findall(r'^\s*(?:Theorem|Lemma|Corollary)\s+(\w+)',src,re.M))
claims=[]
for l in open(root+'/tools/claims.txt'):
    l=l.strip()
    if not l or l.startswith('#'): continue
    p,s,t,n=[x.strip() for x in l.split('|',3)]
    ths=[x.strip() for x in t.split(',') if x.strip()]
    for x in ths:
        if x not in known: print('UNKNOWN theorem',p,x)
    claims.append(dict(property=p,status=s,theorems=ths,note=n))
ids=[json.loads(l)['id'] for l in open(root+'/properties.jsonl')]
have=[c['property'] for c in claims]
print('missing:',[i for i in ids if i not in have])
open(root+'/MANIFEST.json','w').write(json.dumps({"claims":claims},indent=1)+'\n')
