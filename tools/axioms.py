# Rewrites the table of assumptions at the end of DESIGN.md from the output of Assumptions*.v.
import re,subprocess,concurrent.futures as cf
T='/verif/rocq/theories/'
def one(i):
    f=T+'Assumptions%d.v'%i
    names=re.findall(r'^Print Assumptions (\w+)\.',open(f).read(),re.M)
    out=subprocess.run(['coqc','-Q','theories','Verif','-o','/tmp/Assumptions%d.vo'%i,f],cwd='/verif/rocq',capture_output=True,text=True)
    assert out.returncode==0,out.stderr
    parts=re.split(r'^(Axioms:|Closed under the global context)$',out.stdout,flags=re.M)[1:]
    res=[]
    for k in range(0,len(parts),2):
        res.append(tuple(sorted(re.findall(r'^([A-Za-z_][\w.]*)\s*:',parts[k+1],re.M))) if parts[k]=='Axioms:' else ())
    assert len(res)==len(names),(len(res),len(names))
    return dict(zip(names,res))
with cf.ThreadPoolExecutor(3) as ex:
    al={}
    for d in ex.map(one,[1,2,3,4]): al.update(d)
groups={}
for n in sorted(al): groups.setdefault(al[n],[]).append(n)
s='\n## What `Print Assumptions` lists\n'
for ax,ns in sorted(groups.items(),key=lambda x:len(x[0])):
    s+='\n'+('No axioms ("Closed under the global context")' if not ax else 'Axioms '+', '.join('`%s`'%a for a in ax))+' (%d theorems):\n\n'%len(ns)
    line=''
    for n in ns:
        if len(line)+len(n)>118: s+=line.rstrip()+'\n'; line=''
        line+='`%s`, '%n
    s+=line.rstrip(', ')+'.\n'
d=open('/verif/DESIGN.md').read()
d=d.split('\n## What `Print Assumptions` lists')[0].rstrip('\n')+'\n'+s
open('/verif/DESIGN.md','w').write(d)
print({k:len(v) for k,v in groups.items()})
