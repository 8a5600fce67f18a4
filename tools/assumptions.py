#!/usr/bin/env python3
"""assumptions.py: run Print Assumptions on every theorem of MANIFEST.json (needs a built rocq/) and update the table in DESIGN.md."""
import json,glob,re,subprocess,collections,os
os.chdir(os.path.join(os.path.dirname(os.path.abspath(__file__)),'..','rocq'))
d=json.load(open('../MANIFEST.json'))
where={}
for f in glob.glob('theories/C_*.v'):
    for n in re.findall(r'^(?:Theorem|Lemma|Corollary)\s+(C\d+_\w+)',open(f).read(),re.M): where[n]=f.split('/')[-1][:-2]
names=[t for c in d['claims'] for t in c['theorems']]
o='From Verif Require '+' '.join(sorted(set(where[n] for n in names)))+'.\n'
for n in names: o+='Print Assumptions Verif.%s.%s.\n'%(where[n],n)
open('/tmp/pa.v','w').write(o)
r=subprocess.run('coqc -Q theories Verif /tmp/pa.v',shell=True,capture_output=True,text=True)
assert r.returncode==0,r.stderr
ch=[c for c in re.split(r'^(?=Closed under|Axioms:)',r.stdout,flags=re.M) if c.startswith(('Closed','Axioms'))]
assert len(ch)==len(names)
g=collections.OrderedDict()
for n,c in zip(names,ch):
    ax=tuple(sorted(a for a in re.findall(r'^([\w.]+)\s*:',c,re.M) if a!='Axioms')) if c.startswith('Axioms') else ()
    g.setdefault(ax,[]).append(n)
t='| theorems | axioms listed by Print Assumptions |\n|---|---|\n'
for a,l in sorted(g.items(),key=lambda x:len(x[0])):
    if not a: t+='| all %d theorems of MANIFEST.json not named below | none (Closed under the global context) |\n'%len(l)
    else: t+='| %s | %s |\n'%(', '.join(l),', '.join(a))
s=open('../DESIGN.md').read()
s=re.sub(r'(<!-- assumptions -->\n).*?(<!-- end -->)',lambda m:m.group(1)+t+m.group(2),s,flags=re.S)
open('../DESIGN.md','w').write(s)
print({len(a):len(l) for a,l in g.items()})
