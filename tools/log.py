#!/usr/bin/env python3
"""Append the results of mutate.py runs to seeded/LOG.jsonl (one line per attempt).
usage: log.py out1.jsonl [out2.jsonl ...]; notes in tools/mut_notes.json add
"tightened"/"comment" per mutation id."""
import sys, json, os
here = os.path.dirname(os.path.abspath(__file__))
notes = json.load(open(here + "/mut_notes.json")) if os.path.exists(here + "/mut_notes.json") else {}
log = os.path.join(here, "..", "seeded", "LOG.jsonl")
old = {}
if os.path.exists(log):
    for l in open(log):
        if l.strip():
            o = json.loads(l); old[o["id"]] = o
for f in sys.argv[1:]:
    for l in open(f):
        o = json.loads(l)
        if o.get("error"): continue
        n = notes.get(o["id"], {})
        r = {"id": o["id"], "definition": o["file"][:-2] + "." + o["definition"], "edit": o["edit"],
             "old": o["old"], "new": o["new"], "claim_broken": o["claim"],
             "lemmas_failed": o["failed_lemmas"], "theorems_failed": o["failed_theorems"],
             "theorems_tightened": n.get("tightened", [])}
        if n.get("comment"): r["comment"] = n["comment"]
        old[o["id"]] = r
os.makedirs(os.path.dirname(log), exist_ok=True)
with open(log, "w") as w:
    for k in old: w.write(json.dumps(old[k]) + "\n")
print(len(old), "entries")
