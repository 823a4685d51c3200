#!/usr/bin/env python3
"""Regenerate MANIFEST.json from the theorem names in rocq/theories/Prop_*.v and the notes in tools/notes.json."""
import glob, json, os, re
root = os.path.dirname(os.path.dirname(os.path.abspath(__file__)))
ids = [json.loads(l)["id"] for l in open(root + "/properties.jsonl") if l.strip()]
notes = json.load(open(root + "/tools/notes.json"))
thms = {}
for f in sorted(glob.glob(root + "/rocq/theories/Prop_*.v")):
    for name in re.findall(r"^Theorem (C\d+_\w+)", open(f).read(), re.M):
        thms.setdefault(name.split("_")[0], []).append(name)
claims = []
for i in ids:
    if i not in thms:
        continue
    n = notes.get(i, {})
    st = "partial" if any(t.endswith("_partial") for t in thms[i]) else "proved"
    claims.append({"property": i, "status": n.get("status", st), "theorems": thms[i], "note": n.get("note", "")})
json.dump({"claims": claims}, open(root + "/MANIFEST.json", "w"), indent=1)
print(len(claims), "claims;", "missing:", [i for i in ids if i not in thms])
