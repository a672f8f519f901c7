#!/usr/bin/env python3
"""Builds seeded/LOG.jsonl from the output files of mutate.py (later files override earlier ones) and seeded/notes.json.

usage: gen_log.py result.jsonl ...
"""
import json, sys, os
os.chdir(os.path.join(os.path.dirname(__file__), "..", "seeded"))
notes = json.load(open("notes.json"))
res = {}
if os.path.exists("LOG.jsonl"):
    for l in open("LOG.jsonl"): d = json.loads(l); res[d["id"]] = d
for f in sys.argv[1:]:
    for l in open(f):
        d = json.loads(l)
        if "error" in d: continue
        th = d["theorems_failed"]
        res[d["id"]] = {"id": d["id"], "file": "theories/" + d["file"], "definition": d["definition"],
            "edit": [{"old": o, "new": n} for o, n in d["edit"]], "what": d["what"], "claim_broken": d["claim"],
            "theorems_failed": [t for t in th if not t.endswith("_example")],
            "examples_failed": [t for t in th if t.endswith("_example")],
            "proofs_failed": d["proofs_failed"] + d["hard"]}
for k, d in res.items():
    n = notes.get(k, {})
    d["theorems_tightened"] = n.get("tightened", [])
    if "note" in n: d["note"] = n["note"]
with open("LOG.jsonl", "w") as o:
    for k in sorted(res, key=lambda k: int(k[1:])): o.write(json.dumps(res[k]) + "\n")
bad = [k for k, d in res.items() if not d["theorems_failed"]]
print(len(res), "attempts; no theorem failed:", bad)
