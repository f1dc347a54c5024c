#!/usr/bin/env python3
"""Regenerates MANIFEST.json from the theorem names in rocq/theories/Props and tools/notes.json."""
import json, re, glob, os
root = os.path.dirname(os.path.dirname(os.path.abspath(__file__)))
notes = json.load(open(f"{root}/tools/notes.json"))
ths = {}
for f in sorted(glob.glob(f"{root}/rocq/theories/Props/*.v")):
    for m in re.finditer(r"^Theorem ((C\d+)_\w+)", open(f).read(), re.M):
        ths.setdefault(m.group(2), []).append(m.group(1))
claims = []
for line in open(f"{root}/properties.jsonl"):
    p = json.loads(line)["id"]
    t = ths.get(p, [])
    if not t:
        continue
    part = any(x.endswith(("_refuted", "_partial")) for x in t) or p in notes.get("force_partial", [])
    claims.append({"property": p, "status": "partial" if part else "proved",
                   "theorems": t, "note": notes.get(p, "")})
json.dump({"claims": claims}, open(f"{root}/MANIFEST.json", "w"), indent=1)
missing = [json.loads(l)["id"] for l in open(f"{root}/properties.jsonl") if json.loads(l)["id"] not in ths]
print("missing:", missing)
