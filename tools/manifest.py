#!/usr/bin/env python3
"""Regenerates MANIFEST.json from the *Props.v files: theorem names C<id>_...; a claim is 'proved' when no
theorem of it is named _partial or _refuted, else 'partial'.  Notes come from tools/notes.json."""
import re, json, glob, os
root = os.path.join(os.path.dirname(os.path.abspath(__file__)), "..")
props = [json.loads(l)["id"] for l in open(os.path.join(root, "properties.jsonl"))]
notes = json.load(open(os.path.join(root, "tools", "notes.json")))
th = {}
for f in sorted(glob.glob(os.path.join(root, "rocq/theories/*Props*.v"))):
    for m in re.finditer(r"^Theorem\s+(C\d+)_(\w+)", open(f).read(), re.M):
        th.setdefault(m.group(1), []).append(m.group(1) + "_" + m.group(2))
claims = []
for i in props:
    n = notes.get(i, "")
    if i in th:
        ts = th[i]
        st = "partial" if any(t.endswith("_partial") or t.endswith("_refuted") for t in ts) else "proved"
        claims.append({"property": i, "status": st, "theorems": ts, "note": n})
    elif n.startswith("NA:"):
        claims.append({"property": i, "status": "not_applicable", "theorems": [], "note": n[3:].strip()})
json.dump({"claims": claims}, open(os.path.join(root, "MANIFEST.json"), "w"), indent=1)
print(len(claims), "claims;", [c["property"] for c in claims if c["status"] != "proved"], "not proved; missing:",
      [i for i in props if i not in [c["property"] for c in claims]])
for i in th:
    assert i in props, i
