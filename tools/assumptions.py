#!/usr/bin/env python3
"""Prints, for every theorem named in MANIFEST.json, what Print Assumptions says (run in /verif after a build)."""
import json, re, subprocess, os, glob
os.chdir(os.path.join(os.path.dirname(__file__), "..", "rocq", "theories"))
where = {}
for f in glob.glob("*.v"):
    for m in re.finditer(r"^(?:Theorem|Lemma)\s+([A-Za-z0-9_']+)", open(f).read(), re.M):
        where.setdefault(m.group(1), []).append(f[:-2])
names = []
for c in json.load(open("../../MANIFEST.json"))["claims"]:
    for t in c["theorems"]:
        if t not in names: names.append(t)
mods = sorted({m for t in names for m in where[t]})
src = "From Verif Require %s.\n" % " ".join(mods)
order = []
for t in names:
    for m in where[t]:
        src += "Print Assumptions Verif.%s.%s.\n" % (m, t); order.append((m, t))
open("/tmp/pa_all.v", "w").write(src)
out = subprocess.run(["coqc", "-Q", ".", "Verif", "/tmp/pa_all.v"], capture_output=True, text=True).stdout
res = [l for l in out.splitlines() if l.strip()]
closed = sum(1 for l in res if l.startswith("Closed under the global context"))
print(len(order), "theorems;", closed, "closed under the global context")
for l in res:
    if not l.startswith("Closed"): print(l)
