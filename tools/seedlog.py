#!/usr/bin/env python3
"""Write seeded/LOG.jsonl from the result files of tools/mutate.py.

usage: seedlog.py RESULTS.jsonl...    (appends attempts that are not logged yet)
"""
import json, os, sys

HERE = os.path.dirname(os.path.abspath(__file__))
LOG = os.path.join(HERE, "..", "seeded", "LOG.jsonl")
# attempts that no theorem noticed, and what was done about them
TIGHTENED = json.load(open(os.path.join(HERE, "tightened.json")))

os.makedirs(os.path.dirname(LOG), exist_ok=True)
known = set()
if os.path.exists(LOG):
    known = {json.loads(l)["id"] for l in open(LOG)}
with open(LOG, "a") as o:
    for fn in sys.argv[1:]:
        for l in open(fn):
            d = json.loads(l)
            if d["id"] in known or "error" in d:
                continue
            t = TIGHTENED.get(d["id"], {})
            o.write(json.dumps({
                "id": d["id"], "definition": f"{d['file']}: {d['definition']}",
                "edit": d["edit"], "old": d["old"], "new": d["new"], "claim": d["claim"],
                "theorems_failed": d["failed"], "lemmas_broken": d["broken"],
                "not_finished": d.get("stuck", []),
                "theorems_tightened": t.get("theorems", []), "note": t.get("note", ""),
            }) + "\n")
            known.add(d["id"])
print(len(known))
