#!/usr/bin/env python3
"""results.jsonl of tools/mutate.py -> seeded/LOG.jsonl, one line per seeded wrong program.
Keeps hand-written 'theorems_tightened'/'note' fields from seeded/NOTES.json (key: definition + ' | ' + new)."""
import json, os, re, sys
V = os.path.dirname(os.path.dirname(os.path.abspath(__file__)))
res = [json.loads(l) for f in sys.argv[1:] for l in open(f)]
np = f"{V}/seeded/NOTES.json"
notes = json.load(open(np)) if os.path.exists(np) else {}
thm = {}
for f in sorted(os.listdir(f"{V}/rocq/theories")):
    if f.startswith("Props") and f.endswith(".v"):
        for n in re.findall(r"^Theorem (C\d\d_\w+)", open(f"{V}/rocq/theories/{f}", errors="replace").read(), re.M):
            thm.setdefault(n[:3], []).append((n, f[:-2]))
with open(f"{V}/seeded/LOG.jsonl", "w") as o:
    for r in res:
        if r["result"].startswith("NOT"): continue
        r["old"], r["new"] = ("  ;  ".join(x) if isinstance(x, list) else x for x in (r["old"], r["new"]))
        ids = re.findall(r"C\d\d", r["claim"])
        ub = set(r.get("unbuilt_props", []))
        nt = notes.get(r["definition"] + " | " + r["new"], {})
        o.write(json.dumps({
            "definition": r["file"][:-2] + "." + r["definition"],
            "edit": r["old"] + "  ==>  " + r["new"],
            "claim_broken": r["claim"],
            "result": r["result"],
            "proofs_that_failed": r.get("failed", []),
            "theorems_failed": sorted({x.split(".")[1] for x in r.get("failed", []) if re.match(r"\w+\.C\d\d_", x)} | {n for i in ids for n, f in thm.get(i, []) if f in ub}),
            "theorems_tightened": nt.get("tightened", []),
            **({"note": nt["note"]} if "note" in nt else {})}) + "\n")
