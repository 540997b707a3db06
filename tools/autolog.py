#!/usr/bin/env python3
"""Append results of automut.py to seeded/LOG.jsonl: autolog.py OUT.jsonl [VERDICTS.json]
VERDICTS.json: {"index": {"tightened": [...], "note": "..."}} for the survivors."""
import json, os, sys
root = os.path.join(os.path.dirname(os.path.abspath(__file__)), "..")
log = os.path.join(root, "seeded", "LOG.jsonl")
seen = {(d["definition"], d["edit"]) for d in map(json.loads, open(log))}
verdicts = json.load(open(sys.argv[2])) if len(sys.argv) > 2 else {}
n = 0
with open(log, "a") as f:
    for l in open(sys.argv[1]):
        r = json.loads(l)
        if r["status"] == "illtyped": continue
        v = verdicts.get(str(r["i"]))
        if r["status"] == "survived" and v is None: continue
        d = r["file"] + ":" + r["name"]
        ctx = " ".join(r["context"].split())
        e = "%s -> %s in: %s" % (r["old"].strip(), r["new"].strip(), ctx)
        if (d, e) in seen: continue
        seen.add((d, e)); n += 1
        by = r.get("by") or []
        if isinstance(by, str): by = [by]
        line = {"definition": d, "edit": e, "claim": "generated edit; whatever the theorems say of " + r["name"],
                "theorems_failed": by, "theorems_tightened": (v or {}).get("tightened", [])}
        if v and v.get("note"): line["note"] = v["note"]
        f.write(json.dumps(line, ensure_ascii=False) + "\n")
print(n, "lines added")
