#!/usr/bin/env python3
"""Rewrite the generated table of DESIGN.md from properties.jsonl and MANIFEST.json."""
import json
import os

here = os.path.dirname(os.path.abspath(__file__))
top = os.path.join(here, "..")
titles = {}
for line in open(os.path.join(top, "properties.jsonl")):
    x = json.loads(line)
    titles[x["id"]] = x["title"]
claims = json.load(open(os.path.join(top, "MANIFEST.json")))["claims"]
rows = ["| Id | Property | Status | Theorems | File |", "|----|----------|--------|----------|------|"]
where = {}
d = os.path.join(top, "rocq", "theories")
for f in sorted(os.listdir(d)):
    if f.startswith("Props") and f.endswith(".v"):
        for line in open(os.path.join(d, f)):
            w = line.split()
            if len(w) > 1 and w[0] in ("Theorem", "Corollary"):
                where[w[1]] = f
for c in claims:
    names = c["theorems"]
    files = sorted({where.get(n, "?") for n in names})
    rows.append("| %s | %s | %s | %s | %s |" % (
        c["property"], titles[c["property"]], c["status"],
        ", ".join("`%s`" % n for n in names), ", ".join(files)))
p = os.path.join(top, "DESIGN.md")
s = open(p).read()
a, b = "<!-- table -->\n", "<!-- end of table -->"
i, j = s.index(a) + len(a), s.index(b)
open(p, "w").write(s[:i] + "\n" + "\n".join(rows) + "\n\n" + s[j:])
print(len(rows) - 2)
