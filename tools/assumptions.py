"""Prints, for every theorem of MANIFEST.json, what Print Assumptions lists, grouped; run after a build.
Replaces the part of DESIGN.md between the two marker lines."""
import json,re,subprocess,os,glob,tempfile
root=os.path.dirname(os.path.dirname(os.path.abspath(__file__)))
th=[]
for c in json.load(open(root+'/MANIFEST.json'))['claims']:
    for t in c['theorems']:
        if t not in th: th.append(t)
mods=[os.path.basename(f)[:-2] for f in sorted(glob.glob(root+'/rocq/theories/Properties/P*.v'))]
src="From Verif.Properties Require "+" ".join(mods)+".\n"
where={}
for m in mods:
    for n in re.findall(r'^(?:Theorem|Corollary) ([A-Za-z0-9_\']+)',open(root+'/rocq/theories/Properties/%s.v'%m).read(),re.M): where[n]=m
for t in th: src+='Check Set. Print Assumptions %s.%s.\n'%(where[t],t)
d=tempfile.mkdtemp(); open(d+'/A.v','w').write(src)
out=subprocess.run(['coqc','-Q',root+'/rocq/theories','Verif',d+'/A.v'],capture_output=True,text=True)
assert out.returncode==0,out.stderr
parts=re.split(r'^Set\n\s+: Type\n',out.stdout,flags=re.M)[1:]
assert len(parts)==len(th),(len(parts),len(th))
groups={}
for t,p in zip(th,parts):
    ax=tuple(sorted(set(re.findall(r'^([A-Za-z_][\w.]*)\s*$|^([A-Za-z_][\w.]*) :',p,re.M)))) if not p.startswith('Closed') else ()
    ax=tuple(sorted(a or b for a,b in ax if (a or b)!='Axioms'))
    groups.setdefault(ax,[]).append(t)
txt=''
for ax,ts in sorted(groups.items()):
    if not ax: txt+='**Closed under the global context** (no axioms), %d theorems: all those of MANIFEST.json not listed below.\n\n'%len(ts)
    else: txt+='**'+', '.join('`%s`'%a for a in ax)+'**, %d theorems: '%len(ts)+', '.join('`%s`'%t for t in ts)+'.\n\n'
s=open(root+'/DESIGN.md').read()
a,b='<!-- assumptions -->\n','<!-- end -->\n'
i=s.index(a)+len(a); j=s.index(b)
open(root+'/DESIGN.md','w').write(s[:i]+txt+s[j:])
print(txt)
