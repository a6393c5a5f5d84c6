#!/usr/bin/env python3
"""Rebuild MANIFEST.json from the theorem names in rocq/theories/T_*.v.

A theorem named Cnn_... belongs to property Cnn.  The status of a property is
"partial" when listed in PARTIAL below, otherwise "proved" when it has theorems.
"""
import json, re, glob, os
root = os.path.dirname(os.path.dirname(os.path.abspath(__file__)))
notes = json.load(open(os.path.join(root, "tools", "notes.json")))
thms = {}
for f in sorted(glob.glob(os.path.join(root, "rocq/theories/T_*.v"))):
    for m in re.finditer(r"^Theorem\s+((C\d\d+)_\w+)", open(f).read(), re.M):
        thms.setdefault(m.group(2), []).append(m.group(1))
claims = []
for line in open(os.path.join(root, "properties.jsonl")):
    if not line.strip():
        continue
    i = json.loads(line)["id"]
    n = notes.get(i, {})
    t = thms.get(i, [])
    if not t:
        continue
    claims.append({"property": i, "status": n.get("status", "proved"), "theorems": t,
                   "note": n.get("note", "")})
json.dump({"claims": claims}, open(os.path.join(root, "MANIFEST.json"), "w"), indent=1)
print(len(claims), "claims")
