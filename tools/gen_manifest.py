#!/usr/bin/env python3
"""Regenerates rocq/_CoqProject and MANIFEST.json from the *_Props.v files.

A property is "proved" when all its theorems hold at full strength, "partial" when one of them is
named _partial or _refuted (the note says what is missing or which defect refutes it)."""
import json, os, re, glob
root = os.path.join(os.path.dirname(os.path.abspath(__file__)), "..")
th = os.path.join(root, "rocq", "theories")
files = sorted(os.path.basename(f) for f in glob.glob(th + "/*.v"))
with open(os.path.join(root, "rocq", "_CoqProject"), "w") as f:
    f.write("-Q theories Verif\n")
    for x in files:
        f.write("theories/" + x + "\n")
notes = {}
np = os.path.join(root, "tools", "notes.json")
if os.path.exists(np):
    notes = json.load(open(np))
thm = {}
for x in files:
    if not x.endswith("_Props.v"):
        continue
    for m in re.finditer(r"^Theorem (C\d+)(\w*)", open(os.path.join(th, x)).read(), re.M):
        thm.setdefault(m[1], []).append(m[1] + m[2])
claims = []
for line in open(os.path.join(root, "properties.jsonl")):
    p = json.loads(line)["id"]
    t = thm.get(p, [])
    n = notes.get(p, {})
    st = n.get("status")
    if not st:
        st = "partial" if (not t or any(a.endswith(("_partial", "_refuted")) for a in t)) else "proved"
    claims.append({"property": p, "status": st, "theorems": t, "note": n.get("note", "" if t else "not yet modelled")})
json.dump({"claims": claims}, open(os.path.join(root, "MANIFEST.json"), "w"), indent=1)
print(len(files), "files", sum(len(v) for v in thm.values()), "theorems;", [c["property"] for c in claims if not c["theorems"]])
