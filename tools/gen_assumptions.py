#!/usr/bin/env python3
"""Rewrites the table of assumptions in DESIGN.md from Print Assumptions.

Run after a build, from anywhere: python3 tools/gen_assumptions.py
"""
import os, re, subprocess, tempfile

root = os.path.dirname(os.path.dirname(os.path.abspath(__file__)))
rocq = os.path.join(root, "rocq")
theories = os.path.join(rocq, "theories")
props = sorted(f[:-2] for f in os.listdir(theories) if re.fullmatch(r"Prop\w+\.v", f))
names = []
for p in props:
    text = open(os.path.join(theories, p + ".v")).read()
    names += [(p, n) for n in re.findall(r"(?m)^Theorem (C\d\d\w*)", text)]
with tempfile.TemporaryDirectory() as d:
    src = os.path.join(d, "Assum.v")
    with open(src, "w") as f:
        f.write("From Verif Require %s.\n" % " ".join(props))
        for p, n in names:
            f.write("Print Assumptions Verif.%s.%s.\n" % (p, n))
    out = subprocess.run(["coqc", "-Q", theories, "Verif", src], capture_output=True, text=True, check=True).stdout
blocks = re.split(r"(?m)^(?=Closed under|Axioms:)", out)[1:]
assert len(blocks) == len(names), (len(blocks), len(names))
groups = {}
for (p, n), b in zip(names, blocks):
    axioms = tuple(sorted(set(re.findall(r"(?m)^([A-Za-z_][\w.']*)\s*(?::|$)", b)) - {"Axioms"})) if b.startswith("Axioms") else ()
    groups.setdefault(axioms, []).append(n)
lines = []
for axioms, ns in sorted(groups.items(), key=lambda g: (len(g[0]), g[0])):
    head = "no axioms (closed under the global context)" if not axioms else ", ".join("`%s`" % a for a in axioms)
    lines.append("* %s: %s" % (head, ", ".join("`%s`" % n for n in sorted(ns))))
path = os.path.join(root, "DESIGN.md")
text = open(path).read()
start, end = "<!-- assumptions -->\n", "<!-- end assumptions -->\n"
i, j = text.index(start) + len(start), text.index(end)
open(path, "w").write(text[:i] + "\n".join(lines) + "\n" + text[j:])
print(len(names), "theorems")
