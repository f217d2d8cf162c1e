#!/usr/bin/env python3
"""Writes MANIFEST.json: which theorem proves which property.  Theorem names are
collected from the Properties*.v files: a theorem called Cnn_... belongs to Cnn.
The status and the note of each property are given in tools/notes.json."""
import json, re, glob, os
root = os.path.dirname(os.path.abspath(__file__)) + "/.."
ids = [json.loads(l)["id"] for l in open(root + "/properties.jsonl")]
notes = json.load(open(root + "/tools/notes.json"))
thms = {i: [] for i in ids}
for f in sorted(glob.glob(root + "/rocq/theories/Properties*.v")):
    for m in re.finditer(r"^Theorem (C\d\d)(\w*)", open(f).read(), re.M):
        thms[m.group(1)].append(m.group(1) + m.group(2))
claims = []
for i in ids:
    n = notes.get(i, {"status": "partial", "note": "not proved yet"})
    assert n["status"] != "proved" or thms[i], i
    claims.append({"property": i, "status": n["status"], "theorems": thms[i], "note": n["note"]})
json.dump({"claims": claims}, open(root + "/MANIFEST.json", "w"), indent=1)
open(root + "/MANIFEST.json", "a").write("\n")
for i in ids:
    if not thms[i]: print("no theorem:", i)
