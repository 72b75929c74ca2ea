#!/usr/bin/env python3
"""Print the assumptions of every theorem in MANIFEST.json and put the result at the end of DESIGN.md.
Run after a build, from anywhere."""
import glob, json, os, re, subprocess, tempfile
root = os.path.join(os.path.dirname(os.path.abspath(__file__)), "..")
man = json.load(open(os.path.join(root, "MANIFEST.json")))
th = [(c["property"], t) for c in man["claims"] for t in c["theorems"]]
where = {}
for f in glob.glob(os.path.join(root, "rocq/theories/Props_*.v")):
    for m in re.finditer(r"^Theorem (\w+)", open(f).read(), re.M):
        where[m.group(1)] = os.path.basename(f)[:-2]
with tempfile.TemporaryDirectory() as d:
    p = os.path.join(d, "Assume.v")
    with open(p, "w") as f:
        for x in sorted(set(where.values())):
            f.write("From Verif Require %s.\n" % x)
        for _, t in th:
            f.write("Check %s.%s.\nPrint Assumptions %s.%s.\n" % (where[t], t, where[t], t))
    out = subprocess.run(["coqc", "-Q", os.path.join(root, "rocq/theories"), "Verif", p],
                         capture_output=True, text=True, check=True).stdout
closed = out.count("Closed under the global context")
print(closed, len(th))
assert closed == len(th) and "Axioms:" not in out
lines = ["| Property | Theorem | File | `Print Assumptions` |", "|---|---|---|---|"]
lines += ["| %s | `%s` | %s | Closed under the global context |" % (c, t, where[t]) for c, t in th]
p = os.path.join(root, "DESIGN.md")
s = open(p).read()
mark = "<!-- assumptions -->"
s = s[:s.index(mark)] + mark + "\n" + "\n".join(lines) + "\n"
open(p, "w").write(s)
