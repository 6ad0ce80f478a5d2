#!/usr/bin/env python3
"""Writes MANIFEST.json from the theorem names found in rocq/theories/P_*.v.

Status is "proved" unless listed in NOTES as partial."""
import glob, json, os, re
root = os.path.dirname(os.path.dirname(os.path.abspath(__file__)))
exec(open(os.path.join(root, "tools", "notes.py")).read())
found = {}
for f in sorted(glob.glob(os.path.join(root, "rocq/theories/P_*.v"))):
    for m in re.finditer(r"^Theorem\s+((C\d\d+)_\w+)", open(f).read(), re.M):
        found.setdefault(m.group(2), []).append(m.group(1))
props = [json.loads(l)["id"] for l in open(os.path.join(root, "properties.jsonl"))]
claims = []
for p in props:
    ths = found.get(p, [])
    status, note = NOTES.get(p, (None, ""))
    if status is None:
        status = "partial" if (not ths or any(t.endswith(("_partial", "_refuted")) for t in ths)) else "proved"
    if not ths:
        status, note = "partial", note or "modelled; theorem not written yet"
    claims.append({"property": p, "status": status, "theorems": ths, "note": note})
json.dump({"claims": claims}, open(os.path.join(root, "MANIFEST.json"), "w"), indent=1)
print({s: sum(c["status"] == s for c in claims) for s in ("proved", "partial", "not_applicable")})
print("without theorem:", [c["property"] for c in claims if not c["theorems"]])
