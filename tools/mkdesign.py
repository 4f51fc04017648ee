#!/usr/bin/env python3
"""Writes DESIGN.md: tools/design_head.md (hand-written), the generated per-property table, tools/design_tail.md."""
import json,re,glob,os
root=os.path.dirname(os.path.dirname(os.path.abspath(__file__)))
props=[json.loads(l) for l in open(root+"/properties.jsonl")]
claims={c["property"]:c for c in json.load(open(root+"/MANIFEST.json"))["claims"]}
where={}
for f in sorted(glob.glob(root+"/rocq/theories/*.v")):
    for m in re.finditer(r"^(?:Theorem|Lemma|Corollary)\s+(C\d+_\w+)",open(f).read(),re.M): where[m.group(1)]=os.path.basename(f)
assum=sum(len(re.findall(r"^Print Assumptions",open(f).read(),re.M)) for f in glob.glob(root+"/rocq/theories/*.v"))
out=[open(root+"/tools/design_head.md").read().rstrip()]
out.append("\n## 6. Property table (generated by tools/mkdesign.py)\n")
out.append("Each entry: status; where the theorems are; which code is modelled (full paths and lines are in the comments of the\nmodel files); what is proved and what is not. `_refuted` theorems state that the code violates the claim, `_partial` ones the\npart that holds.\n")
for p in props:
    c=claims[p["id"]]
    fs=sorted({where[t] for t in c["theorems"] if t in where})
    anc="; ".join(p["anchors"]) if isinstance(p["anchors"],list) else str(p["anchors"])
    note=c["note"] or "Proved as stated."
    out.append(f"* **{p['id']} {p['title']}** — {c['status']}, {len(c['theorems'])} theorem{'s' if len(c['theorems'])!=1 else ''} in {', '.join(fs)}. Code: {anc}. {note}")
tail=root+"/tools/design_tail.md"
if os.path.exists(tail): out.append("\n"+open(tail).read().rstrip())
n={s:sum(1 for c in claims.values() if c["status"]==s) for s in ("proved","partial","not_applicable")}
txt="\n".join(out)+"\n"
txt=txt.replace("@NPROPS@",str(len(props))).replace("@NPROVED@",str(n["proved"])).replace("@NPARTIAL@",str(n["partial"])).replace("@NTHM@",str(sum(len(c["theorems"]) for c in claims.values()))).replace("@NASSUM@",str(assum)).replace("@NMUT@",str(sum(1 for _ in open(root+"/seeded/LOG.jsonl"))))
open(root+"/DESIGN.md","w").write(txt)
print(len(txt))
