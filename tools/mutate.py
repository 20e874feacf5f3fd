#!/usr/bin/env python3
"""Runs seeded wrong programs against the development, in a scratch copy.
usage: mutate.py mutants.json [outfile]   (each: file, definition, old, new, claim)
A result line: definition, edit, claim, failed lemmas, blocked Props files; survived if everything still builds."""
import json, os, re, subprocess, sys, shutil
SRC = "/tmp/mut/src"; DST = "/tmp/mut/rocq"   # SRC: a built snapshot of /verif/rocq
def sh(c, t=4000): return subprocess.run(c, shell=True, capture_output=True, text=True, timeout=t)
def enclosing(path, line):
    name = "?"
    for k, l in enumerate(open(path), 1):
        if k > line: break
        m = re.match(r"\s*(?:Theorem|Lemma|Example|Corollary|Fact|Definition|Fixpoint)\s+([\w']+)", l)
        if m: name = m.group(1)
    return name
muts = json.load(open(sys.argv[1])); out = sys.argv[2] if len(sys.argv) > 2 else "/tmp/mut/results.jsonl"
os.makedirs("/tmp/mut", exist_ok=True)
MAKE = 'make -k -j4 COQC="timeout 900 coqc"'
sh(f"rm -rf {SRC} {DST}; cp -a /verif/rocq {SRC}; cp -a {SRC} {DST}")
assert sh(f"cd {DST} && {MAKE}").returncode == 0
for m in muts:
    p = f"{DST}/theories/{m['file']}"
    orig = open(p).read()
    olds, news = ([x] if isinstance(x, str) else x for x in (m["old"], m["new"]))   # several edits of one file: two lists
    if any(orig.count(o) != 1 for o in olds):
        r = dict(m, result="NOT APPLICABLE")
    else:
        edited = orig
        for o, n in zip(olds, news): edited = edited.replace(o, n)
        open(p, "w").write(edited)
        b = sh(f"cd {DST} && {MAKE} 2>&1")
        errs = re.findall(r'File "\./theories/(\w+)\.v", line (\d+), characters [\d-]+:\nError', b.stdout)
        failed = sorted({f + "." + enclosing(f"{DST}/theories/{f}.v", int(n)) for f, n in errs})
        slow = re.findall(r'theories/(\w+)\.vo\] Error 124', b.stdout)
        failed += [f + '.(timeout)' for f in slow]
        r2 = sh(f"cd {DST} && make -k -n 2>/dev/null | grep -o 'theories/[A-Za-z0-9_]*\\.v' | sort -u")
        unbuilt = sorted({os.path.basename(x)[:-2] for x in r2.stdout.split()})
        r = dict(m, result="survived" if b.returncode == 0 else "killed", failed=failed, unbuilt_props=[u for u in unbuilt if u.startswith("Props")])
        open(p, "w").write(orig)
        # restore compiled files
        sh(f"cd {SRC}/theories && for f in *.v *.vo *.vok *.vos *.glob; do cp -p $f {DST}/theories/ 2>/dev/null; done")
    with open(out, "a") as f: f.write(json.dumps(r) + "\n")
    print(r["result"], m["definition"], "|", str(m["new"])[:50].replace("\n", " "), "|", r.get("failed"), flush=True)
