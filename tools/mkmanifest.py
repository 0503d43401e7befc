#!/usr/bin/env python3
"""Regenerates MANIFEST.json from the theorem names in rocq/theories/P_*.v and notes.json."""
import glob, json, os, re
root = os.path.dirname(os.path.dirname(os.path.abspath(__file__)))
notes = json.load(open(os.path.join(root, "tools", "notes.json")))
props = [json.loads(l)["id"] for l in open(os.path.join(root, "properties.jsonl")) if l.strip()]
thms = {}
for f in sorted(glob.glob(os.path.join(root, "rocq", "theories", "P_*.v"))):
    for n in re.findall(r"^Theorem\s+(C\d+\w*)", open(f).read(), re.M):
        thms.setdefault(n.split("_")[0], []).append(n)
claims = []
for p in props:
    ts = thms.get(p, [])
    if not ts:
        if p in notes and notes[p].startswith("N/A"):
            claims.append({"property": p, "status": "not_applicable", "theorems": [], "note": notes[p]})
        continue
    partial = any(t.endswith("_partial") or t.endswith("_refuted") for t in ts)
    claims.append({"property": p, "status": "partial" if partial else "proved",
                   "theorems": ts, "note": notes.get(p, "")})
with open(os.path.join(root, "MANIFEST.json"), "w") as o:
    o.write('{"claims": [\n' + ",\n".join(json.dumps(c) for c in claims) + "\n]}\n")
print(len(claims), "claims,", sum(len(c["theorems"]) for c in claims), "theorems;",
      "unclaimed:", [p for p in props if p not in {c["property"] for c in claims}])
