#!/usr/bin/env python3
"""Write MANIFEST.json and rocq/_CoqProject from the Props files.

The theorems of property Cnn are the theorems called Cnn_... in rocq/theories/Props*.v.
STATUS gives the properties that are not plainly proved, and NOTE the notes."""
import glob, json, os, re
ROOT = os.path.dirname(os.path.dirname(os.path.abspath(__file__)))
TH = os.path.join(ROOT, "rocq", "theories")
from manifest_notes import NOTE, STATUS

thms = {}
for f in sorted(glob.glob(os.path.join(TH, "Props*.v"))):
    for m in re.finditer(r"^Theorem (C\d+)(\w*)", open(f).read(), re.M):
        thms.setdefault(m.group(1), []).append(m.group(1) + m.group(2))
claims = []
for line in open(os.path.join(ROOT, "properties.jsonl")):
    i = json.loads(line)["id"]
    t = thms.get(i, [])
    if not t:
        continue
    default = "proved" if t and not any(x.endswith(("_partial", "_refuted")) for x in t) else "partial"
    claims.append({"property": i, "status": STATUS.get(i, default), "theorems": t,
                   "note": NOTE.get(i, "" if t else "not modelled yet")})
json.dump({"claims": claims}, open(os.path.join(ROOT, "MANIFEST.json"), "w"), indent=1)
with open(os.path.join(ROOT, "rocq", "_CoqProject"), "w") as o:
    o.write("-Q theories Verif\n")
    for f in sorted(glob.glob(os.path.join(TH, "*.v"))):
        o.write("theories/" + os.path.basename(f) + "\n")
for c in claims:
    print(c["property"], c["status"], len(c["theorems"]))
