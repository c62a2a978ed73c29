#!/usr/bin/env python3
"""seedlog.py ROUND OUT.jsonl [NOTES.json]: append the results of tools/mutate.py to seeded/LOG.jsonl (one line per mutation; an id already there is replaced)."""
import json, os, re, sys
root = os.path.dirname(os.path.dirname(os.path.abspath(__file__)))
log = os.path.join(root, "seeded", "LOG.jsonl")
rnd, out = sys.argv[1], sys.argv[2]
notes = json.load(open(sys.argv[3])) if len(sys.argv) > 3 else {}
muts = {m["id"]: m for m in json.load(open(os.path.join(os.path.dirname(out), rnd + ".json")))}
old = [json.loads(l) for l in open(log)] if os.path.exists(log) else []
new = []
for l in open(out):
    r = json.loads(l)
    m = muts[r["id"]]
    n = notes.get(r["id"], {})
    exp = set(m["expect"])
    mine = [t for t in r["failed"] if t[:3].upper() in exp]
    other = sorted({t[:3].upper() for t in r["failed"]} - exp)
    e = {"id": r["id"], "round": rnd, "file": m["file"] + ".v", "definition": m["definition"], "edit": m["edit"], "claim": m["claim"],
         "theorems_failed": mine, "also_failed_properties": other, "lemmas_failed": [s for s in r["skipped"] if not s.startswith("c")],
         "caught": r["caught"], "theorems_tightened": n.get("tightened", [])}
    if "note" in n: e["note"] = n["note"]
    new.append(e)
have = {(e["round"], e["id"]) for e in new}
with open(log, "w") as f:
    for e in [e for e in old if (e["round"], e["id"]) not in have] + new:
        f.write(json.dumps(e) + "\n")
print(len(new), "written;", [e["id"] for e in new if not e["caught"]], "not caught")
