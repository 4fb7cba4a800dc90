#!/usr/bin/env python3
"""Write MANIFEST.json: the theorems of each property are collected from the
P_*.v files by their name prefix (C01_...); STATUS and NOTES hold the rest."""
import glob, json, re, os
here = os.path.dirname(os.path.abspath(__file__))
root = os.path.dirname(here)
ids = [json.loads(l)["id"] for l in open(f"{root}/properties.jsonl")]
thms = {i: [] for i in ids}
for f in sorted(glob.glob(f"{root}/rocq/theories/P_*.v")):
    for m in re.finditer(r"^Theorem (C\d+)_(\w+)", open(f).read(), re.M):
        thms[m.group(1)].append(f"{m.group(1)}_{m.group(2)}")
notes = json.load(open(f"{here}/notes.json"))
claims = []
for i in ids:
    if not thms[i]:
        continue
    partial = any(t.endswith("_partial") for t in thms[i])
    claims.append({"property": i, "status": "partial" if partial else "proved",
                   "theorems": thms[i], "note": notes.get(i, "")})
json.dump({"claims": claims}, open(f"{root}/MANIFEST.json", "w"), indent=1)
print(len(claims), "claims,", sum(len(c["theorems"]) for c in claims), "theorems; missing:",
      [i for i in ids if not thms[i]])
