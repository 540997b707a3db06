#!/usr/bin/env python3
"""Append results of mutate.py to seeded/LOG.jsonl: mutlog.py OUT.jsonl"""
import json, os, sys
root = os.path.join(os.path.dirname(os.path.abspath(__file__)), "..")
log = os.path.join(root, "seeded", "LOG.jsonl")
os.makedirs(os.path.dirname(log), exist_ok=True)
seen = set()
if os.path.exists(log):
    for l in open(log):
        if l.strip():
            d = json.loads(l); seen.add((d["definition"], d["edit"]))
with open(log, "a") as f:
    for l in open(sys.argv[1]):
        r = json.loads(l)
        if "definition" not in r: continue
        if (r["definition"], r["edit"]) in seen or r.get("build_broken"): continue
        f.write(json.dumps({"definition": r["definition"], "edit": r["edit"], "claim": r["claim"],
          "theorems_failed": r["theorems_failed"], "theorems_tightened": r.get("theorems_tightened", []),
          **({"note": r["note"]} if r.get("note") else {})}, ensure_ascii=False) + "\n")
