#!/usr/bin/env python3
"""Regenerates MANIFEST.json from the theorem names in rocq/theories/Props_*.v.
Status: partial if some theorem of the property is *_partial or NOTES says so,
proved otherwise; properties without theorem are listed as partial with no theorem."""
import glob, json, os, re
root = os.path.join(os.path.dirname(os.path.abspath(__file__)), "..")
notes = json.load(open(os.path.join(root, "tools", "notes.json")))
th = {}
for f in sorted(glob.glob(os.path.join(root, "rocq/theories/Props_*.v"))):
    mod = os.path.basename(f)[:-2]
    for m in re.finditer(r"^Theorem\s+(C\d\d\w*)", open(f).read(), re.M):
        th.setdefault(m.group(1)[:3], []).append("Verif.%s.%s" % (mod, m.group(1)))
claims = []
for line in open(os.path.join(root, "properties.jsonl")):
    d = json.loads(line)
    i = d["id"]
    n = notes.get(i, {})
    ts = [t.split(".")[-1] for t in th.get(i, [])]
    st = n.get("status") or ("partial" if (not ts or any("_partial" in t for t in ts)) else "proved")
    claims.append({"property": i, "status": st, "theorems": ts, "note": n.get("note", "" if ts else "not yet proved")})
json.dump({"claims": claims}, open(os.path.join(root, "MANIFEST.json"), "w"), indent=1)
print(sum(c["status"] == "proved" for c in claims), "proved of", len(claims))
