#!/usr/bin/env python3
"""Append scratch mutation results (one JSON per line: definition, edit, claim,
failed, blocked) to seeded/LOG.jsonl.  usage: seedlog.py results.jsonl"""
import json,re,sys,os
R=os.path.join(os.path.dirname(__file__),'..')
thm={}
for f in os.listdir(R+'/rocq/theories'):
    if f.startswith('Prop') and f.endswith('.v'):
        for t in re.findall(r'^Theorem (C\d\d_\w+)',open(R+'/rocq/theories/'+f).read(),re.M):
            thm.setdefault(f[:-2],[]).append(t)
log=R+'/seeded/LOG.jsonl'
have=set()
if os.path.exists(log):
    for l in open(log):
        if l.strip(): r=json.loads(l); have.add((r['definition'],r['edit']))
out=open(log,'a')
for l in open(sys.argv[1]):
    r=json.loads(l)
    if (r['definition'],r['edit']) in have: continue
    ids=re.findall(r'C\d\d',r['claim'])
    direct=[x for x in r['failed']]
    lost=[t for f in r['blocked'] for t in thm.get(f,[]) if any(t.startswith(i) for i in ids)]
    out.write(json.dumps(dict(definition=r['definition'],edit=r['edit'],claim=r['claim'],
      failed_first=direct,theorems_failed=sorted(set(lost+[x.split('.')[1] for x in direct if re.match(r'.*\.C\d\d_',x)])),
      tightened=r.get('tightened',[]),note=r.get('note','')))+'\n')
