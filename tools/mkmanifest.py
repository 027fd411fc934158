#!/usr/bin/env python3
"""Writes MANIFEST.json from the theorem names in rocq/theories/*Theorems*.v and notes.json."""
import json,re,glob,os
root=os.path.dirname(os.path.dirname(os.path.abspath(__file__)))
props=[json.loads(l) for l in open(root+"/properties.jsonl")]
notes=json.load(open(root+"/tools/notes.json"))
th={}
for f in sorted(glob.glob(root+"/rocq/theories/*Theorems*.v")):
    for m in re.finditer(r"^(?:Theorem|Lemma)\s+(C\d+)_(\w+)",open(f).read(),re.M):
        th.setdefault(m.group(1),[]).append(m.group(1)+"_"+m.group(2))
claims=[]
for p in props:
    i=p["id"]; t=th.get(i,[])
    n=notes.get(i,{})
    if isinstance(n,str): n={"note":n}
    st=n.get("status")
    if not st:
        st="partial" if (not t or any(x.endswith("_partial") or x.endswith("_refuted") for x in t)) else "proved"
    claims.append({"property":i,"status":st,"theorems":t,"note":n.get("note","" if t else "not yet modelled")})
json.dump({"claims":claims},open(root+"/MANIFEST.json","w"),indent=1)
print({s:sum(c["status"]==s for c in claims) for s in ("proved","partial","not_applicable")}, [c["property"] for c in claims if not c["theorems"]], [k for k in th if k not in {p["id"] for p in props}])
