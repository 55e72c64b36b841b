#!/usr/bin/env python3
"""Rebuild MANIFEST.json from the theorem names in rocq/theories/P_*.v and tools/status.json."""
import glob, json, os, re
root = os.path.dirname(os.path.dirname(os.path.abspath(__file__)))
thms = {}
for f in sorted(glob.glob(root + "/rocq/theories/P_*.v")):
    for m in re.finditer(r"^Theorem\s+(C\d\d+)(\w*)", open(f).read(), re.M):
        thms.setdefault(m.group(1), []).append(m.group(1) + m.group(2))
status = json.load(open(root + "/tools/status.json"))
rows = []
for l in open(root + "/properties.jsonl"):
    i = json.loads(l)["id"]
    if i not in thms and i not in status:
        continue
    st, note = status.get(i, ["proved", ""])
    rows.append(json.dumps({"property": i, "status": st, "theorems": thms.get(i, []), "note": note}))
open(root + "/MANIFEST.json", "w").write('{"claims": [\n' + ",\n".join(rows) + "\n]}\n")
