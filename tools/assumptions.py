#!/usr/bin/env python3
"""Runs Print Assumptions on every theorem of tools/claims.txt (the build in rocq/ must be
up to date) and writes the table between the markers of DESIGN.md."""
import re,subprocess
R='/verif/rocq'
mods=[l.strip().split('/')[1][:-2] for l in open(R+'/_CoqProject') if l.startswith('theories/')]
src={m:open(f'{R}/theories/{m}.v').read() for m in mods}
ths=[]
for l in open('/verif/tools/claims.txt'):
    p=[x.strip() for x in l.split('|')]
    for t in p[2].split(','):
        t=t.strip()
        if t: ths.append((p[0],t,[m for m in mods if re.search(r'(Theorem|Lemma|Corollary)\s+%s\b'%t,src[m])][0]))
q='From Verif Require '+' '.join(mods)+'.\n'+''.join(f'Goal True. idtac "@@@". Abort.\nPrint Assumptions {m}.{t}.\n' for _,t,m in ths)
open('/tmp/assum_q.v','w').write(q)
o=subprocess.run('coqc -Q theories Verif /tmp/assum_q.v',shell=True,cwd=R,capture_output=True,text=True)
assert o.returncode==0,o.stderr
parts=o.stdout.split('@@@')[1:]
groups={}
for (c,t,m),x in zip(ths,parts):
    if 'Closed under' in x: ax=()
    else: ax=tuple(sorted({a for a in re.findall(r'^([A-Za-z_][\w.\']*) ?:',x,re.M) if a!='Axioms'}|{a for a in re.findall(r'^([A-Za-z_][\w.\']*)\s*\n\s+:',x,re.M)}))
    groups.setdefault(ax,[]).append(t)
out=[]
for ax,tl in sorted(groups.items(),key=lambda g:len(g[0])):
    out.append(('No axioms ("Closed under the global context")' if not ax else 'Axioms: '+', '.join('`%s`'%a for a in ax))+':\n\n'+', '.join('`%s`'%t for t in tl)+'.\n')
d=open('/verif/DESIGN.md').read()
a,b='<!-- assumptions -->','<!-- /assumptions -->'
if a in d:
    d=d[:d.index(a)+len(a)]+'\n'+'\n'.join(out)+d[d.index(b):]
    open('/verif/DESIGN.md','w').write(d)
else: print('\n'.join(out))
print(len(ths),'theorems',len(groups),'groups')
