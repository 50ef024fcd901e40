"""Writes /verif/MANIFEST.json. Theorems are collected from the Properties files:
every Theorem named Cxx_... belongs to property Cxx."""
import json, re, glob, os
ROOT = os.path.dirname(os.path.dirname(os.path.abspath(__file__)))
NOTES = {}
PARTIAL = {}
exec(open(os.path.join(ROOT, "tools", "notes.py")).read())
thms = {}
for f in sorted(glob.glob(os.path.join(ROOT, "rocq/theories/Properties/*.v"))):
    for m in re.finditer(r"^Theorem\s+((C\d+)_\w+)", open(f).read(), re.M):
        thms.setdefault(m.group(2), []).append(m.group(1))
ids = [json.loads(l)["id"] for l in open(os.path.join(ROOT, "properties.jsonl"))]
claims = []
for i in ids:
    t = thms.get(i, [])
    if i in PARTIAL or not t:
        st = "partial"
    else:
        st = "proved"
    note = PARTIAL.get(i) or NOTES.get(i) or ("" if t else "not proved yet")
    claims.append({"property": i, "status": st, "theorems": t, "note": note})
json.dump({"claims": claims}, open(os.path.join(ROOT, "MANIFEST.json"), "w"), indent=1)
print({s: sum(c["status"] == s for c in claims) for s in ("proved", "partial")}, "theorems", sum(len(c["theorems"]) for c in claims))
