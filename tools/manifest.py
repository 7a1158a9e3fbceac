#!/usr/bin/env python3
"""Regenerates MANIFEST.json from notes.json and the theorem names in rocq/theories/Properties*.v.
A theorem C07_foo belongs to property C07."""
import json, re, glob, os
root = os.path.dirname(os.path.dirname(os.path.abspath(__file__)))
thms = {}
for f in sorted(glob.glob(root + "/rocq/theories/Properties*.v")):
    for m in re.finditer(r"^Theorem (C\d+)_\w*", open(f).read(), re.M):
        thms.setdefault(m.group(1), []).append(m.group(0).split()[1])
notes = json.load(open(root + "/tools/notes.json"))
claims = []
for line in open(root + "/properties.jsonl"):
    pid = json.loads(line)["id"]
    ts = thms.get(pid, [])
    n = notes.get(pid, "")
    if not ts:
        continue
    part = any(re.search(r"_(refuted|partial)", t) for t in ts)
    claims.append({"property": pid, "status": "partial" if part else "proved", "theorems": ts, "note": n})
json.dump({"claims": claims}, open(root + "/MANIFEST.json", "w"), indent=1)
print(len(claims), "claims,", sum(len(c["theorems"]) for c in claims), "theorems")
