#!/usr/bin/env python3
"""Build MANIFEST.json from the Prop*.v files (theorems named Cnn_...) and notes below."""
import json,re,glob,os
root=os.path.dirname(os.path.dirname(os.path.abspath(__file__)))
props=[json.loads(l) for l in open(root+"/properties.jsonl")]
thms={}
for f in sorted(glob.glob(root+"/rocq/theories/*.v")):
    for m in re.finditer(r"^(?:Theorem|Lemma|Corollary)\s+(C\d+)_(\w+)",open(f).read(),re.M):
        thms.setdefault(m.group(1),[]).append(m.group(1)+"_"+m.group(2))
notes={}
exec(open(root+"/tools/notes.py").read())
claims=[]
for p in props:
    t=thms.get(p["id"],[])
    st,note=notes.get(p["id"],(None,""))
    if st is None:
        st="proved" if t and not any(x.endswith(("_partial","_refuted")) for x in t) else "partial"
    if not t: st="not_applicable" if st=="not_applicable" else "partial"; note=note or "no theorem yet"
    claims.append(dict(property=p["id"],status=st,theorems=t,note=note))
json.dump({"claims":claims},open(root+"/MANIFEST.json","w"),indent=1)
from collections import Counter
print(Counter(c["status"] for c in claims), sum(len(c["theorems"]) for c in claims), [c["property"] for c in claims if not c["theorems"]])
