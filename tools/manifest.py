"""Regenerate MANIFEST.json: theorem names are collected from rocq/theories/T_*.v
(theorem `C01_...` belongs to property C01); status and notes come from NOTES."""
import glob, json, re, os
ROOT = os.path.dirname(os.path.dirname(os.path.abspath(__file__)))
notes = json.load(open(os.path.join(ROOT, "tools", "notes.json")))
ids = [json.loads(l)["id"] for l in open(os.path.join(ROOT, "properties.jsonl")) if l.strip()]
thms = {}
for f in sorted(glob.glob(os.path.join(ROOT, "rocq", "theories", "T_*.v"))):
    for m in re.finditer(r"^Theorem\s+(C\d+)(_\w+)", open(f).read(), re.M):
        thms.setdefault(m.group(1), []).append(m.group(1) + m.group(2))
claims = []
for i in ids:
    t = thms.get(i, [])
    n = notes.get(i, {})
    status = n.get("status") or ("proved" if t else None)
    if not t and status != "not_applicable":
        status = "partial"
        n = {"note": n.get("note", "not yet proved: the model does not cover this code yet")}
    claims.append({"property": i, "status": status, "theorems": t, "note": n.get("note", "")})
json.dump({"claims": claims}, open(os.path.join(ROOT, "MANIFEST.json"), "w"), indent=1)
print(sum(c["status"] == "proved" for c in claims), "proved of", len(claims), [i for i in thms if i not in ids])
