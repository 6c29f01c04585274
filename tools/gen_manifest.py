#!/usr/bin/env python3
"""Write MANIFEST.json from the theorem names of rocq/theories/Prop_*.v and tools/notes.json."""
import glob
import json
import os
import re

ROOT = os.path.dirname(os.path.dirname(os.path.abspath(__file__)))
ids = [json.loads(line)["id"] for line in open(os.path.join(ROOT, "properties.jsonl"))]
notes = json.load(open(os.path.join(ROOT, "tools", "notes.json")))
thms = {}
listed = open(os.path.join(ROOT, "rocq", "_CoqProject")).read().split()
for path in sorted(glob.glob(os.path.join(ROOT, "rocq", "theories", "Prop_*.v"))):
    if "theories/" + os.path.basename(path) not in listed:
        continue
    for name in re.findall(r"^Theorem (c\d+_\w+)", open(path).read(), re.M):
        thms.setdefault("C" + re.match(r"c(\d+)_", name).group(1), []).append(name)
claims = []
for i in ids:
    if i not in thms:
        continue
    t = thms[i]
    partial = any(n.endswith("_partial") or n.endswith("_refuted") for n in t)
    status = "partial" if partial else "proved"
    note = notes.get(i, "")
    if isinstance(note, list):
        status, note = note
    claims.append({"property": i, "status": status, "theorems": t, "note": note})
json.dump({"claims": claims}, open(os.path.join(ROOT, "MANIFEST.json"), "w"), indent=1)
print(len(claims), "claims,", sum(len(c["theorems"]) for c in claims), "theorems")
for i in ids:
    if i not in thms:
        print("missing", i)
