#!/usr/bin/env python3
"""Regenerate MANIFEST.json from properties.jsonl and the theorems of rocq/theories/Prop*.v
(theorem names start with the property id: c07_...)."""
import glob, json, os, re
root = os.path.dirname(os.path.dirname(os.path.abspath(__file__)))
notes = json.load(open(os.path.join(root, "tools", "notes.json")))
thms = {}
for f in sorted(glob.glob(os.path.join(root, "rocq/theories/Prop*.v"))):
    for m in re.finditer(r"^(?:Theorem|Corollary)\s+((c\d+)_\w+)", open(f).read(), re.M):
        thms.setdefault(m.group(2).upper(), []).append(m.group(1))
claims = []
for line in open(os.path.join(root, "properties.jsonl")):
    p = json.loads(line)["id"]
    n = notes.get(p, {})
    ts = thms.get(p, [])
    if not ts and n.get("status") != "not_applicable":
        continue
    st = n.get("status") or ("partial" if any("_partial" in t or "_refuted" in t for t in ts) else "proved")
    claims.append({"property": p, "status": st, "theorems": ts, "note": n.get("note", "")})
json.dump({"claims": claims}, open(os.path.join(root, "MANIFEST.json"), "w"), indent=1)
print(len(claims), "claims")
for c in claims: print(c["property"], c["status"], len(c["theorems"]))
