#!/usr/bin/env python3
"""Write MANIFEST.json: theorems Cnn_* of rocq/theories, grouped by property."""
import json, re, glob, os
root = os.path.join(os.path.dirname(os.path.abspath(__file__)), "..")
props = [json.loads(l) for l in open(os.path.join(root, "properties.jsonl")) if l.strip()]
notes = json.load(open(os.path.join(root, "tools", "notes.json")))
thms = {}
for f in sorted(glob.glob(os.path.join(root, "rocq", "theories", "*.v"))):
    for m in re.finditer(r"^(?:Theorem|Lemma|Corollary)\s+(C\d\d+)(_\w+)", open(f).read(), re.M):
        thms.setdefault(m.group(1), []).append(m.group(1) + m.group(2))
claims = []
for p in props:
    t = thms.get(p["id"], [])
    n = notes.get(p["id"], {})
    if not t and "status" not in n:
        continue
    st = n.get("status") or ("partial" if any(x.endswith("_partial") for x in t) else "proved")
    claims.append({"property": p["id"], "status": st, "theorems": t, "note": n.get("note", "")})
json.dump({"claims": claims}, open(os.path.join(root, "MANIFEST.json"), "w"), indent=1)
print(len(claims), "claims", sum(len(c["theorems"]) for c in claims), "theorems",
      "missing:", [p["id"] for p in props if p["id"] not in {c["property"] for c in claims}])
