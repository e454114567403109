#!/usr/bin/env python3
"""Writes MANIFEST.json; checks that every theorem named exists in a T_ file."""
import json,re,glob,os
R=os.path.join(os.path.dirname(os.path.abspath(__file__)),"..")
thms=set()
for f in glob.glob(R+"/rocq/theories/T_*.v"):
    for m in re.finditer(r"^(?:Theorem|Corollary)\s+([A-Za-z0-9_']+)",open(f).read(),re.M): thms.add(m.group(1))
exec(open(R+"/tools/manifest_data.py").read())
props=[json.loads(l)["id"] for l in open(R+"/properties.jsonl")]
claims=[];used=set()
for p in props:
    auto=sorted(t for t in thms if t.startswith(p+"_") and not re.search(r"nonvacuous|_example",t))
    d=NOTES.get(p)
    if d is None:
        if auto: print("no note for",p)
        continue
    st,note=d
    if st!="not_applicable" and not auto: print("no theorems for",p); continue
    claims.append({"property":p,"status":st,"theorems":auto,"note":note})
json.dump({"claims":claims},open(R+"/MANIFEST.json","w"),indent=1,ensure_ascii=False)
print(len(claims),"claims",sum(len(c["theorems"]) for c in claims),"theorems; missing:",[p for p in props if p not in NOTES])
