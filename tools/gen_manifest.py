#!/usr/bin/env python3
"""Write MANIFEST.json from the theorem names in rocq/theories/*Props.v."""
import glob, json, os, re
root = os.path.join(os.path.dirname(os.path.abspath(__file__)), "..")
ids = [json.loads(l)["id"] for l in open(os.path.join(root, "properties.jsonl"))]
thms = {i: [] for i in ids}
for f in sorted(glob.glob(os.path.join(root, "rocq/theories/*Props.v"))):
    for name in re.findall(r"^Theorem\s+(C\d\d+_\w+)", open(f).read(), re.M):
        thms[name.split("_")[0]].append(name)

# (status, note) for everything that is not plainly proved
notes = json.load(open(os.path.join(root, "tools/manifest_notes.json")))
claims = []
for i in ids:
    n = notes.get(i, {})
    thms[i] += n.get("theorems", [])
    if thms[i]:
        status = n.get("status", "proved")
    else:
        status = "partial"
        n = {"note": "not proved yet"}
    claims.append({"property": i, "status": status, "theorems": thms[i], "note": n.get("note", "")})
with open(os.path.join(root, "MANIFEST.json"), "w") as f:
    f.write('{"claims": [\n' + ",\n".join(json.dumps(c) for c in claims) + "\n]}\n")
print({s: sum(c["status"] == s for c in claims) for s in ("proved", "partial", "not_applicable")})
