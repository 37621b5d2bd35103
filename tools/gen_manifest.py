"""Writes MANIFEST.json from the table in tools/manifest_data.py."""
import json, os, sys
sys.path.insert(0, os.path.dirname(__file__))
from manifest_data import CLAIMS
root = os.path.dirname(os.path.dirname(os.path.abspath(__file__)))
out = {"claims": [dict(property=p, status=s, theorems=t, note=n) for p, s, t, n in CLAIMS]}
# sanity: each theorem name exists
src = ""
d = os.path.join(root, "rocq", "theories")
for f in os.listdir(d):
    if f.startswith("Properties") and f.endswith(".v"):
        src += open(os.path.join(d, f)).read()
for c in out["claims"]:
    for t in c["theorems"]:
        assert ("Theorem %s " % t in src) or ("Theorem %s:" % t in src), t
json.dump(out, open(os.path.join(root, "MANIFEST.json"), "w"), indent=1)
print(len(out["claims"]), "claims")
