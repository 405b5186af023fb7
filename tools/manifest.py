#!/usr/bin/env python3
"""Regenerate /verif/MANIFEST.json from the theorems in rocq/theories/Prop_*.v."""
import glob, json, os, re
root = os.path.join(os.path.dirname(os.path.abspath(__file__)), "..")
thms = {}
for f in sorted(glob.glob(os.path.join(root, "rocq/theories/Prop_*.v"))):
    for m in re.finditer(r"^Theorem (C\d+)_(\w+)", open(f).read(), re.M):
        thms.setdefault(m.group(1), []).append(m.group(1) + "_" + m.group(2))
notes = json.load(open(os.path.join(root, "tools/notes.json")))
claims = []
for line in open(os.path.join(root, "properties.jsonl")):
    p = json.loads(line)["id"]
    if p not in thms:
        if p in notes:
            claims.append(dict(property=p, status="not_applicable", theorems=[], note=notes[p]))
        continue
    t = thms[p]
    part = any(x.endswith("_partial") or x.endswith("_refuted") for x in t)
    claims.append(dict(property=p, status="partial" if part else "proved", theorems=t, note=notes.get(p, "")))
    if part and p not in notes:
        print("note missing for", p)
json.dump({"claims": claims}, open(os.path.join(root, "MANIFEST.json"), "w"), indent=1)
print(len(claims), "claims,", sum(c["status"] == "proved" for c in claims), "proved")
