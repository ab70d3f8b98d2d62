#!/usr/bin/env python3
"""Rewrite MANIFEST.json: theorem names come from rocq/theories/Properties*.v, status and notes from here."""
import glob, json, os, re
root = os.path.dirname(os.path.dirname(os.path.abspath(__file__)))
names = {}
for f in sorted(glob.glob(root + "/rocq/theories/Properties*.v")):
    for n in re.findall(r"^Theorem (C\d\d_\w+)", open(f).read(), flags=re.M):
        names.setdefault(n[:3], []).append(n)
LIB = "for the modelled types listed in LibraryTypes.v"
info = json.load(open(root + "/tools/manifest_notes.json"))
claims = []
for l in open(root + "/properties.jsonl"):
    i = json.loads(l)["id"]
    status, note = info.get(i, ["partial", ""])
    ths = names.get(i, [])
    if not ths and status != "not_applicable":
        continue
    claims.append({"property": i, "status": status, "theorems": ths, "note": note})
json.dump({"claims": claims}, open(root + "/MANIFEST.json", "w"), indent=1)
print(len(claims), "claims")
