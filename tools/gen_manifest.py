#!/usr/bin/env python3
"""Writes /verif/MANIFEST.json from the theorem names in rocq/theories/Props*.v and the notes below."""
import json,re,glob,os
root=os.path.dirname(os.path.dirname(os.path.abspath(__file__)))
NOTES=json.load(open(os.path.join(root,"tools/notes.json")))
props=[json.loads(l) for l in open(os.path.join(root,"properties.jsonl"))]
listed=set(l.strip() for l in open(os.path.join(root,"rocq/_CoqProject")))
thms={}
for f in sorted(glob.glob(os.path.join(root,"rocq/theories/Props*.v"))):
    if "theories/"+os.path.basename(f) not in listed: continue
    for n in re.findall(r"^Theorem (C\d\d+_\w+)",open(f).read(),re.M):
        thms.setdefault(n.split("_")[0],[]).append(n)
claims=[]
for p in props:
    t=thms.get(p["id"],[])
    note=NOTES.get(p["id"],"")
    st="partial" if (not t or any(n.endswith("_partial") for n in t)) else "proved"
    if not t: note=(note+" not yet proved").strip()
    claims.append(dict(property=p["id"],status=st,theorems=t,note=note))
json.dump({"claims":claims},open(os.path.join(root,"MANIFEST.json"),"w"),indent=1)
print({s:sum(c["status"]==s for c in claims) for s in ("proved","partial")}, "theorems",sum(len(c["theorems"]) for c in claims))
# section of DESIGN.md between the markers
d=os.path.join(root,"DESIGN.md")
t=open(d).read()
a,b="<!-- properties -->\n","<!-- end properties -->"
rows="| property | status | proof file(s) | modelled / how proved |\n|---|---|---|---|\n"
where={}
for f in sorted(glob.glob(os.path.join(root,"rocq/theories/Props*.v"))):
    for n in re.findall(r"^Theorem (C\d\d+)_",open(f).read(),re.M): where.setdefault(n,set()).add(os.path.basename(f))
for p,c in zip(props,claims):
    rows+="| %s %s | %s | %s | %s |\n"%(p["id"],p["title"],c["status"],", ".join(sorted(where.get(p["id"],[]))),c["note"])
if a in t: open(d,"w").write(t[:t.index(a)+len(a)]+rows+t[t.index(b):])
