#!/usr/bin/env python3
"""Write MANIFEST.json: for each property the theorems of the Props*.v files
whose name starts with its id, with status and note from the table below."""
import glob, json, os, re

ROOT = os.path.join(os.path.dirname(os.path.abspath(__file__)), "..")
NOTES = json.load(open(os.path.join(ROOT, "tools", "notes.json")))
thms = {}
for f in sorted(glob.glob(os.path.join(ROOT, "rocq", "theories", "Props*.v"))):
    for m in re.finditer(r"^(?:Theorem|Corollary)\s+((C\d\d\d?)_\w+)", open(f).read(), re.M):
        thms.setdefault(m.group(2), []).append(m.group(1))
claims = []
for line in open(os.path.join(ROOT, "properties.jsonl")):
    p = json.loads(line)["id"]
    t = thms.get(p, [])
    n = NOTES.get(p, {})
    if not t:
        continue
    status = n.get("status") or ("partial" if any(x.endswith("_partial") for x in t) else "proved")
    claims.append({"property": p, "status": status, "theorems": t, "note": n.get("note", "")})
json.dump({"claims": claims}, open(os.path.join(ROOT, "MANIFEST.json"), "w"), indent=1)
print(len(claims), "claims", sum(len(c["theorems"]) for c in claims), "theorems")
