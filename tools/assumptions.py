"""Rewrite section 4 of DESIGN.md from the output of Print Assumptions.

usage: assumptions.py BUILD     (BUILD: a compiled copy of rocq/, whose Props*.v are compiled again)
"""
import glob
import re
import subprocess
import sys

build = sys.argv[1]
groups = {}
for f in sorted(glob.glob(build + "/theories/Props*.v")):
    names = re.findall(r"^Print Assumptions (\w+)\.", open(f).read(), re.M)
    out = subprocess.run(["coqc", "-Q", "theories", "Verif", f[len(build) + 1:]], cwd=build, capture_output=True, text=True, check=True).stdout
    blocks = re.split(r"^(?=Axioms:|Closed under)", out, flags=re.M)
    blocks = [b for b in blocks if b.startswith(("Axioms:", "Closed under"))]
    assert len(blocks) == len(names), (f, len(blocks), len(names))
    for n, b in zip(names, blocks):
        ax = tuple(sorted(set(re.findall(r"^([A-Za-z_][\w.]*)(?= :|\n| *$)", b, re.M)) - {"Axioms:"})) if b.startswith("Axioms") else ()
        ax = tuple(sorted(a if "." in a else "PrimFloat." + a for a in ax))
        groups.setdefault(ax, []).append(n)
text = "Every property theorem is followed by `Print Assumptions`; the output, grouped:\n\n"
for ax in sorted(groups):
    head = "**no axiom**" if not ax else "**" + ", ".join("`%s`" % a for a in ax) + "**"
    text += "* %s (%d): %s.\n\n" % (head, len(groups[ax]), ", ".join(groups[ax]))
d = open("/verif/DESIGN.md").read()
a = d.index("Every property theorem is followed by `Print Assumptions`")
b = d.index("`ClassicalDedekindReals.*` and `functional_extensionality_dep`")
open("/verif/DESIGN.md", "w").write(d[:a] + text + d[b:])
print({len(k): len(v) for k, v in groups.items()})
