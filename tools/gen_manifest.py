#!/usr/bin/env python3
"""Write MANIFEST.json: every theorem Cnn_... of the files Prop*.v, grouped by property,
with the status and note of tools/notes.json."""
import glob, json, os, re
root = os.path.dirname(os.path.dirname(os.path.abspath(__file__)))
thms = {}
for f in sorted(glob.glob(root + "/rocq/theories/Prop*.v")):
    for name in re.findall(r"^Theorem ((C\d\d)_\w+)", open(f).read(), re.M):
        thms.setdefault(name[1], []).append(name[0])
notes = json.load(open(root + "/tools/notes.json"))
claims = []
for line in open(root + "/properties.jsonl"):
    c = json.loads(line)["id"]
    if c in thms:
        n = notes.get(c, {})
        claims.append({"property": c, "status": n.get("status", "proved"),
                       "theorems": thms[c], "note": n.get("note", "")})
json.dump({"claims": claims}, open(root + "/MANIFEST.json", "w"), indent=1)
print(len(claims), "claims;", sorted(set(thms) - {c["property"] for c in claims}))
