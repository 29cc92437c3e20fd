#!/usr/bin/env python3
"""Regenerate MANIFEST.json from the theorem names in rocq/theories/Properties*.v.

A theorem belongs to property Cnn when its name starts with Cnn_. A property
with a theorem named *_partial or *_refuted is reported as partial: the full
English statement is not a theorem of the model (see the note). Properties
without a theorem are left out."""
import glob, json, os, re
root = os.path.join(os.path.dirname(os.path.abspath(__file__)), "..")
notes = json.load(open(os.path.join(root, "tools", "notes.json")))
thms = {}
for f in sorted(glob.glob(os.path.join(root, "rocq/theories/Properties*.v"))):
    for m in re.finditer(r"^(?:Theorem|Corollary) ((C\d+)_\w*)", open(f).read(), re.M):
        thms.setdefault(m.group(2), []).append(m.group(1))
claims = []
for line in open(os.path.join(root, "properties.jsonl")):
    p = json.loads(line)
    t = thms.get(p["id"], [])
    n = notes.get(p["id"], {})
    if not t:
        if n.get("status") == "not_applicable":
            claims.append({"property": p["id"], "status": "not_applicable", "theorems": [], "note": n["note"]})
        continue
    st = "partial" if any(x.endswith("_partial") or x.endswith("_refuted") for x in t) else "proved"
    st = n.get("status", st)
    claims.append({"property": p["id"], "status": st, "theorems": t, "note": n.get("note", p["title"])})
json.dump({"claims": claims}, open(os.path.join(root, "MANIFEST.json"), "w"), indent=1)
print(len(claims), "claims", sum(c["status"] == "partial" for c in claims), "partial",
      sum(len(c["theorems"]) for c in claims), "theorems")
