#!/usr/bin/env python3
"""Writes MANIFEST.json.  Theorem lists are collected from theories/Prop*.v by
the prefix Cnn_; status and notes are given here."""
import json, re, glob, os
root = os.path.dirname(os.path.dirname(os.path.abspath(__file__)))
thms = {}
for f in sorted(glob.glob(root + "/rocq/theories/Prop*.v")):
    for n in re.findall(r"^Theorem (C\d\d_\w+)", open(f).read(), re.M):
        thms.setdefault(n[:3], []).append(n)
ids = [json.loads(l)["id"] for l in open(root + "/properties.jsonl") if l.strip()]
from manifest_notes import STATUS
claims = []
for i in ids:
    st, note = STATUS.get(i, (None, ""))
    ts = thms.get(i, [])
    if st is None:
        if not ts:
            claims.append({"property": i, "status": "partial", "theorems": [], "note": "not proved yet"})
            continue
        st = "proved"
    claims.append({"property": i, "status": st, "theorems": ts, "note": note})
json.dump({"claims": claims}, open(root + "/MANIFEST.json", "w"), indent=1)
for c in claims:
    print(c["property"], c["status"], len(c["theorems"]))
