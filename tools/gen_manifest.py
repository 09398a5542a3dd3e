#!/usr/bin/env python3
"""Write MANIFEST.json: theorems Cnn_* of theories/Prop*.v grouped by property id.
notes.json holds the note per property and, optionally, a status other than the default."""
import glob, json, os, re
root = os.path.dirname(os.path.dirname(os.path.abspath(__file__)))
notes = json.load(open(os.path.join(root, "tools", "notes.json")))
ids = [json.loads(l)["id"] for l in open(os.path.join(root, "properties.jsonl")) if l.strip()]
found = {}
for f in sorted(glob.glob(os.path.join(root, "rocq/theories/Prop*.v"))):
    for m in re.finditer(r"^\s*(?:Theorem|Corollary)\s+((C\d\d)_\w+)", open(f).read(), re.M):
        found.setdefault(m.group(2), []).append(m.group(1))
claims = []
for i in ids:
    th = found.get(i, [])
    n = notes.get(i, {})
    if not th:
        continue
    st = n.get("status") or ("partial" if any(t.endswith("_partial") for t in th) else "proved")
    claims.append({"property": i, "status": st, "theorems": th, "note": n.get("note", "")})
json.dump({"claims": claims}, open(os.path.join(root, "MANIFEST.json"), "w"), indent=1)
print("claims:", len(claims), "missing:", [i for i in ids if i not in found],
      "unknown:", sorted(set(found) - set(ids)))
