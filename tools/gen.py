import re,json,glob,os,sys
sys.path.insert(0,'/verif/tools')
T='/verif/rocq/theories/'
thms={}
files=[l.strip() for l in open('/verif/rocq/_CoqProject') if l.startswith('theories/Prop')]
for f in files:
    s=open('/verif/rocq/'+f).read()
    for m in re.finditer(r'^(?:Theorem|Corollary)\s+(C\d\d\d?_\w+)',s,re.M):
        thms.setdefault(m.group(1).split('_')[0],[]).append((m.group(1),os.path.basename(f)[:-2]))
# assumptions file
mods=sorted({m for v in thms.values() for _,m in v})
names=[n for k in sorted(thms) for n,_ in thms[k]]
K=4  # files, built in parallel
for i in range(K):
    part=names[i::K]
    out="(** What every property theorem rests on (part %d of %d). *)\nFrom Verif Require Import %s.\n\n"%(i+1,K,' '.join(mods))
    for n in part: out+=f"Print Assumptions {n}.\n"
    open(T+'Assumptions%d.v'%(i+1),'w').write(out)
from notes import NOTES
claims=[]
props=[json.loads(l) for l in open('/verif/properties.jsonl')]
for p in props:
    i=p['id']
    t=[n for n,_ in thms.get(i,[])]
    if not t: print('no theorem for',i); continue
    partial=any('_partial' in n or '_refuted' in n for n in t)
    st='partial' if partial else 'proved'
    claims.append({"property":i,"status":st,"theorems":t,"note":NOTES.get(i,'')})
    if i not in NOTES: print('no note',i)
json.dump({"claims":claims},open('/verif/MANIFEST.json','w'),indent=1,ensure_ascii=False)
print(len(claims),sum(len(c['theorems']) for c in claims))
