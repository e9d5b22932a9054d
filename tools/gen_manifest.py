#!/usr/bin/env python3
"""Write MANIFEST.json.  Theorem names are checked to exist in rocq/theories/Properties_*.v."""
import glob, json, os, re
root = os.path.dirname(os.path.dirname(os.path.abspath(__file__)))
names = set()
for f in glob.glob(root + "/rocq/theories/*.v"):
    names |= set(re.findall(r"^(?:Theorem|Lemma) (\w+)", open(f).read(), re.M))
claims = []
def claim(prop, status, theorems, note):
    for t in theorems:
        assert t in names, t
    claims.append({"property": prop, "status": status, "theorems": theorems, "note": note})
exec(open(root + "/tools/claims.py").read())
props = [json.loads(l)["id"] for l in open(root + "/properties.jsonl")]
done = {c["property"] for c in claims}
for p in props:
    if p not in done:
        claims.append({"property": p, "status": "partial", "theorems": [], "note": "not proved yet"})
claims.sort(key=lambda c: c["property"])
json.dump({"claims": claims}, open(root + "/MANIFEST.json", "w"), indent=1)
print({s: sum(c["status"] == s for c in claims) for s in ("proved", "partial", "not_applicable")},
      [c["property"] for c in claims if not c["theorems"]])
