#!/usr/bin/env python3
"""Write MANIFEST.json: for each property its status, theorems and a note."""
import json, os, re, glob
ROOT = os.path.dirname(os.path.dirname(os.path.abspath(__file__)))
NOTES = {}
def n(pid, status, note): NOTES[pid] = (status, note)
exec(open(os.path.join(ROOT, "tools", "notes.py")).read())
thms = {}
for f in sorted(glob.glob(os.path.join(ROOT, "rocq/theories/*Props*.v"))):
    for m in re.finditer(r"^Theorem (C\d+)(\w*)\b", open(f).read(), re.M):
        thms.setdefault(m.group(1), []).append(m.group(1) + m.group(2))
claims = []
props = [json.loads(l)["id"] for l in open(os.path.join(ROOT, "properties.jsonl"))]
for pid in props:
    if pid not in thms: continue
    if pid not in NOTES: raise SystemExit("no note for " + pid)
    st, note = NOTES[pid]
    claims.append({"property": pid, "status": st, "theorems": thms[pid], "note": note})
json.dump({"claims": claims}, open(os.path.join(ROOT, "MANIFEST.json"), "w"), indent=1)
print(len(claims), "claims;", "missing:", [p for p in props if p not in thms])
