#!/usr/bin/env python3
"""Write MANIFEST.json from the theorem names in rocq/theories/Prop_*.v."""
import glob, json, os, re
root = os.path.dirname(os.path.dirname(os.path.abspath(__file__)))
notes = json.load(open(os.path.join(root, "tools", "notes.json")))
thms = {}
for f in sorted(glob.glob(os.path.join(root, "rocq/theories/Prop_*.v"))):
    for m in re.finditer(r"^Theorem (C\d+_\w+)", open(f).read(), re.M):
        thms.setdefault(m.group(1).split("_")[0], []).append(m.group(1))
claims = []
for line in open(os.path.join(root, "properties.jsonl")):
    p = json.loads(line)["id"]
    t = thms.get(p, [])
    if not t:
        print("no theorem for", p)
        continue
    status = "partial" if any(x.endswith("_partial") for x in t) else "proved"
    n = notes.get(p, "")
    if isinstance(n, dict):
        status = n["status"]; n = n["note"]
    claims.append({"property": p, "status": status, "theorems": t, "note": n})
json.dump({"claims": claims}, open(os.path.join(root, "MANIFEST.json"), "w"), indent=1)
print(len(claims), "claims", sum(len(c["theorems"]) for c in claims), "theorems")
