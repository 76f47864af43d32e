import json,re
notes=json.load(open('/verif/tools/notes.json'))
props=[json.loads(l) for l in open('/verif/properties.jsonl')]
import glob
thm={}
for f in sorted(glob.glob('/verif/rocq/theories/Props*.v')):
    for m in re.finditer(r'^Theorem (C\d\d\w*)',open(f).read(),re.M):
        thm.setdefault(m.group(1)[:3],[]).append((m.group(1),f.split('/')[-1]))
out=["## Results per property","",
"Generated by `tools/design.py` from `properties.jsonl`, `tools/notes.json` and the theorem names.",""]
for p in props:
    i=p['id']; st,note=notes.get(i,['proved',''])
    fs=sorted({f for _,f in thm.get(i,[])})
    out.append(f"* **{i}** {p['title']} — *{st}* ({', '.join(fs)}): "+", ".join('`'+t+'`' for t,_ in thm.get(i,[]))+"."+(" "+note if note else ""))
out.append("")
s=open('/verif/DESIGN.md').read()
a=s.index('## Results per property'); b=s.index('## Trusted base')
open('/verif/DESIGN.md','w').write(s[:a]+"\n".join(out)+"\n"+s[b:])
