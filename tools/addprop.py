#!/usr/bin/env python3
"""addprop.py FILE.json: append a property {prop:{...}, row:"...", files:[...], status, note}"""
import json,sys,os,subprocess
R=os.path.join(os.path.dirname(os.path.abspath(__file__)),'..')
j=json.load(open(sys.argv[1]))
p=R+'/rocq/_CoqProject'; s=open(p).read().rstrip('\n')
for f in j['files']:
    if 'theories/%s.v'%f not in s.split('\n'): s+='\ntheories/%s.v'%f
open(p,'w').write(s+'\n')
pr=[json.loads(l) for l in open(R+'/properties.jsonl') if l.strip()]
assert j['prop']['id'] not in [x['id'] for x in pr]
open(R+'/properties.jsonl','a').write(json.dumps(j['prop'])+'\n')
d=open(R+'/DESIGN.md').read().split('\n')
import re
i=max(k for k,l in enumerate(d) if re.match(r'\| C\d+(?:[-,]C\d+)* \| ',l))
d.insert(i+1,'| %s | %s |'%(j['prop']['id'],j['row']))
open(R+'/DESIGN.md','w').write('\n'.join(d))
if j.get('status'): subprocess.check_call([sys.executable,R+'/tools/note.py',j['prop']['id'],j['status'],j['note']])
subprocess.check_call([sys.executable,R+'/tools/manifest.py'])
