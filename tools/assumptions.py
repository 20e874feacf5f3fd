#!/usr/bin/env python3
"""Prints, for every manifest theorem, the axioms Print Assumptions lists (needs a built /verif/rocq).
Writes ASSUMPTIONS.md."""
import re, glob, os, subprocess, collections
T = "/verif/rocq/theories"
thms = []
for f in sorted(glob.glob(T + "/Props_*.v")):
    mod = os.path.basename(f)[:-2]
    for l in open(f):
        m = re.match(r"Theorem (C\d\d_\w+)", l)
        if m: thms.append((mod, m.group(1)))
src = "".join(f"From Verif Require {m}.\n" for m in sorted({m for m, _ in thms}))
for m, t in thms:
    src += f'Goal True. idtac "@@ {m}.{t}". exact I. Qed.\nPrint Assumptions {m}.{t}.\n'
os.makedirs("/tmp/ass", exist_ok=True)
open("/tmp/ass/ass.v", "w").write(src)
o = subprocess.run(f"cd /verif/rocq && coqc -Q theories Verif -o /tmp/ass/ass.vo /tmp/ass/ass.v", shell=True, capture_output=True, text=True)
assert o.returncode == 0, o.stdout + o.stderr
groups = collections.defaultdict(list); cur = None; ax = {}
for l in o.stdout.splitlines():
    m = re.match(r"@@ \w+\.(\w+)", l)
    if m: cur = m.group(1); ax[cur] = set(); continue
    m = re.match(r"([A-Za-z_][\w.]*)\s*(:|$)", l)
    if m and cur and m.group(1) not in ("Axioms", "Closed"): ax[cur].add(m.group(1))
for t, a in ax.items(): groups[tuple(sorted(a))].append(t)
with open("/verif/ASSUMPTIONS.md", "w") as f:
    f.write("# What Print Assumptions lists for each theorem\n\nGenerated by tools/assumptions.py.\n")
    for a, ts in sorted(groups.items()):
        f.write("\n## " + (", ".join("`%s`" % x for x in a) if a else "Closed under the global context (no axioms)") + "\n\n")
        f.write(", ".join(sorted(ts)) + "\n")
print(len(thms), {", ".join(k): len(v) for k, v in groups.items()})
