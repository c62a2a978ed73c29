#!/usr/bin/env python3
"""Seeded-bug experiments.  usage: mutate.py BASE MUTATIONS.json OUT.jsonl [ids...]
BASE: a built copy of rocq/ outside /verif.  Each mutation {id, file, old, new, definition, edit, claim, expect}
is applied to a private copy, the project is rebuilt; a proof that no longer checks is skipped (in the copy only)
so that the build goes on, and at the end Print Assumptions tells which property theorems rest on a skipped proof."""
import json, os, re, subprocess, sys, shutil, glob
from concurrent.futures import ThreadPoolExecutor
base, muts, out = sys.argv[1:4]
only = set(sys.argv[4:])
SKIP = "Admit" + "ted."
START = re.compile(r"^\s*(?:Local |Global )?(Lemma|Theorem|Corollary|Example|Definition|Fixpoint|Remark|Fact|Inductive|Ltac|Instance)\s+(\w+)", re.M)
WRAP = "/tmp/mut_coqc.sh"
open(WRAP, "w").write("""#!/bin/bash
for a in "$@"; do n=$a; done
case "$n" in *.v) ulimit -v 6000000; timeout 500 coqc -time "$@" > "$n.time" 2> "$n.err"; r=$?; cat "$n.err" >&2; if [ $r = 124 ]; then echo "TIMEOUT $n" >&2; fi; exit $r;; *) exec coqc "$@";; esac
""")
os.chmod(WRAP, 0o755)
def proof_span(s, pos):
    """the statement enclosing offset pos: (kind, name, start of proof, end of proof)"""
    m = None
    for x in START.finditer(s):
        if x.start() > pos: break
        m = x
    if m is None: return None
    p = s.find("Proof", m.start()); 
    e = re.compile(r"\b(Qed|Defined)\.").search(s, m.start())
    if p < 0 or e is None or p > e.start(): return (m.group(1), m.group(2), None, None)
    return (m.group(1), m.group(2), p, e.end())
def run_one(mu):
    d = "/tmp/mut/" + mu["id"]
    shutil.rmtree(d, ignore_errors=True); os.makedirs("/tmp/mut", exist_ok=True)
    subprocess.run(["cp", "-a", base, d], check=True)
    edits = mu.get("edits") or [{"file": mu["file"], "old": mu["old"], "new": mu["new"]}]
    for e in edits:
        f = "%s/theories/%s.v" % (d, e["file"]); s = open(f).read()
        if s.count(e["old"]) != 1: return dict(mu, error="old text occurs %d times in %s" % (s.count(e["old"]), e["file"]))
        open(f, "w").write(s.replace(e["old"], e["new"]))
    skipped, dead = [], []
    for _ in range(60):
        r = subprocess.run("make -k -j1 COQC=%s 2>&1" % WRAP, shell=True, cwd=d, capture_output=True, text=True)
        log = r.stdout
        if r.returncode == 0: break
        errs = re.findall(r'File "\./theories/(\w+)\.v", line (\d+), characters (\d+)-(\d+):\nError', log) 
        tmo = re.findall(r"TIMEOUT theories/(\w+)\.v", log)
        progress = False
        todo = [(f, int(l)) for f, l, _, _ in errs]
        for f in tmo:
            L = [l for l in open("%s/theories/%s.v.time" % (d, f)) if l.startswith("Chars")]
            e = int(re.match(r"Chars (\d+) - (\d+)", L[-1]).group(2)) if L else 0
            b = open("%s/theories/%s.v" % (d, f), "rb").read()
            todo.append((f, b[:e].count(b"\n") + 1 + (1 if b[e:e+1] == b"\n" else 0)))
        done = set()
        for f, l in todo:
            if f in done or f in dead: continue
            done.add(f)
            p = "%s/theories/%s.v" % (d, f); s = open(p).read()
            pos = sum(len(x) + 1 for x in s.split("\n")[:l-1]) + 1
            ls = s.split("\n")[l-1]; pos += len(ls) - len(ls.lstrip())
            sp = proof_span(s, pos)
            if sp is None or sp[2] is None or sp[0] in ("Definition", "Fixpoint", "Inductive", "Ltac"):
                dead.append(f); skipped.append("%s.v:%s" % (f, sp[1] if sp else "?")); continue
            skipped.append(sp[1]); progress = True
            open(p, "w").write(s[:sp[2]] + SKIP + s[sp[3]:])
        if not progress: break
    failed, missing = [], []
    for f in sorted(glob.glob(d + "/theories/Prop*.v")):
        n = os.path.basename(f)[:-2]
        ths = re.findall(r"^(?:Theorem|Corollary)\s+(c\d+_\w+)", open(f).read(), re.M)
        vo = f + "o"
        if not os.path.exists(vo) or os.path.getmtime(vo) < os.path.getmtime(f) or n in dead:
            missing.append(n); failed += ths; continue
        t = "From Verif Require Import %s.\n" % n + "".join("Goal True. idtac \"@@%s\". exact I. Qed. Print Assumptions %s.\n" % (x, x) for x in ths)
        open(d + "/pa.v", "w").write(t)
        r = subprocess.run("coqc -Q theories Verif pa.v", shell=True, cwd=d, capture_output=True, text=True)
        if r.returncode: missing.append(n + "?"); failed += ths; continue
        for ch in r.stdout.split("@@")[1:]:
            x = ch.split("\n")[0].strip()
            if "Closed under" not in ch: failed.append(x)
    res = {k: v for k, v in mu.items() if k not in ("old", "new", "edits")}
    res.update(skipped=skipped, dead=dead, missing=missing, failed=failed, direct=[x for x in failed if x in skipped])
    ids = sorted({x.split("_")[0].upper() for x in failed})
    res["properties_failed"] = ids
    res["caught"] = all(e in ids for e in mu.get("expect", [])) and bool(failed)
    shutil.rmtree(d, ignore_errors=True)
    return res
L = [m for m in json.load(open(muts)) if not only or m["id"] in only]
def go(m):
    try: r = run_one(m)
    except Exception as e: r = {"id": m["id"], "error": repr(e)}
    with open(out, "a") as f: f.write(json.dumps(r) + "\n")
    print(r["id"], "ERROR " + r["error"] if "error" in r else ("caught" if r["caught"] else "MISSED"), r.get("properties_failed"), "skipped", r.get("skipped"), "dead", r.get("dead"), flush=True)
with ThreadPoolExecutor(int(os.environ.get("JOBS", "4"))) as ex: list(ex.map(go, L))
