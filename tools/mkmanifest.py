#!/usr/bin/env python3
"""Regenerate MANIFEST.json: theorem names come from rocq/theories/Prop*.v,
status and notes from tools/notes.json."""
import glob, json, os, re
root = os.path.dirname(os.path.dirname(os.path.abspath(__file__)))
thms = {}
for f in sorted(glob.glob(root + "/rocq/theories/Prop*.v")):
    for m in re.finditer(r"^Theorem (C(\d\d+)_\w+)", open(f).read(), re.M):
        thms.setdefault("C" + m.group(2), []).append(m.group(1))
notes = json.load(open(root + "/tools/notes.json"))
claims = []
for line in open(root + "/properties.jsonl"):
    p = json.loads(line)["id"]
    n = notes.get(p, {})
    t = thms.get(p, [])
    st = n.get("status", "proved" if t else "partial")
    if not t:
        st = "partial"
    claims.append({"property": p, "status": st, "theorems": t,
                   "note": n.get("note", "" if t else "not proved yet")})
json.dump({"claims": claims}, open(root + "/MANIFEST.json", "w"), indent=1)
print(len(claims), "claims,", sum(c["status"] == "proved" for c in claims), "proved,",
      [c["property"] for c in claims if not c["theorems"]], "without theorem")
