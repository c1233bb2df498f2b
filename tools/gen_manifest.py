#!/usr/bin/env python3
"""Writes MANIFEST.json from the theorem names in rocq/theories/Props_*.v and the
notes in tools/notes.json ({"C01": {"status": ..., "note": ...}}), and the file
list in rocq/_CoqProject."""
import json, os, re, glob
root = os.path.join(os.path.dirname(os.path.abspath(__file__)), "..")
th = os.path.join(root, "rocq/theories")
ids = [json.loads(l)["id"] for l in open(os.path.join(root, "properties.jsonl"))]
notes = json.load(open(os.path.join(root, "tools/notes.json")))
thms = {i: [] for i in ids}
for f in sorted(glob.glob(th + "/Props_*.v")):
    for m in re.finditer(r"^Theorem\s+((C\d\d+)_\w+)", open(f).read(), re.M):
        thms[m.group(2)].append(m.group(1))
claims = []
for i in ids:
    n = notes.get(i, {})
    st = n.get("status", "proved" if thms[i] else "partial")
    claims.append({"property": i, "status": st, "theorems": thms[i],
                   "note": n.get("note", "" if thms[i] else "not proved yet")})
json.dump({"claims": claims}, open(os.path.join(root, "MANIFEST.json"), "w"), indent=1)
vs = sorted(os.path.basename(f) for f in glob.glob(th + "/*.v"))
with open(os.path.join(root, "rocq/_CoqProject"), "w") as f:
    f.write("-Q theories Verif\n" + "".join("theories/%s\n" % v for v in vs))
print(sum(map(len, thms.values())), "theorems;", [i for i in ids if not thms[i]], "without")
