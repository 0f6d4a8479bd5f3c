#!/usr/bin/env python3
"""Rewrite the property table at the end of DESIGN.md from properties.jsonl,
MANIFEST.json and tools/notes.json."""
import glob, json, os, re
root = os.path.dirname(os.path.dirname(os.path.abspath(__file__)))
notes = json.load(open(os.path.join(root, "tools", "notes.json")))
claims = {c["property"]: c for c in json.load(open(os.path.join(root, "MANIFEST.json")))["claims"]}
where = {}
for f in sorted(glob.glob(os.path.join(root, "rocq/theories/*Props*.v"))):
    for m in re.finditer(r"^Theorem\s+(C\d+_\w+)", open(f).read(), re.M):
        where[m.group(1)] = os.path.basename(f)
out = ["| property | status | file | how | note |", "|---|---|---|---|---|"]
for l in open(os.path.join(root, "properties.jsonl")):
    if not l.strip(): continue
    p = json.loads(l); c = claims[p["id"]]; n = notes.get(p["id"], {})
    fs = ", ".join(sorted({where[t] for t in c["theorems"]}))
    out.append("| %s %s | %s | %s | %s | %s |" % (p["id"], p["title"], c["status"], fs, n.get("how", ""), n.get("note", "")))
path = os.path.join(root, "DESIGN.md")
t = open(path).read()
mark = "<!-- property table, generated by tools/mkdesign.py -->\n"
t = t[:t.index(mark)] + mark + "\n".join(out) + "\n"
open(path, "w").write(t)
