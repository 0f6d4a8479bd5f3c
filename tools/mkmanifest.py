#!/usr/bin/env python3
"""Collect the theorems named Cxx_* from the *Props.v files into MANIFEST.json.

Status: "proved" unless one of the theorems of the property ends in _partial or
_refuted (then "partial"), or tools/notes.json says otherwise.
tools/notes.json: {"C01": {"note": "...", "status": "..."}}."""
import glob, json, os, re
root = os.path.dirname(os.path.dirname(os.path.abspath(__file__)))
notes = json.load(open(os.path.join(root, "tools", "notes.json")))
ths = {}
for f in sorted(glob.glob(os.path.join(root, "rocq/theories/*Props*.v"))):
    for m in re.finditer(r"^Theorem\s+((C\d+)_\w+)", open(f).read(), re.M):
        ths.setdefault(m.group(2), []).append(m.group(1))
ids = [json.loads(l)["id"] for l in open(os.path.join(root, "properties.jsonl")) if l.strip()]
claims = []
for i in ids:
    n = notes.get(i, {})
    t = ths.get(i, [])
    if not t and "status" not in n:
        print("no theorem for", i)
        continue
    st = n.get("status") or ("partial" if any(x.endswith(("_partial", "_refuted")) for x in t) else "proved")
    claims.append({"property": i, "status": st, "theorems": t, "note": n.get("note", "")})
json.dump({"claims": claims}, open(os.path.join(root, "MANIFEST.json"), "w"), indent=1)
for i in ths:
    if i not in ids: print("theorem without property:", i)
print(len(claims), "claims;", sum(c["status"] == "proved" for c in claims), "proved")
