#!/usr/bin/env python3
"""Write AXIOMS.md: what Print Assumptions lists for every property theorem, grouped by the set of axioms.
Run after a build; asks again, in a few temporary files compiled side by side, for every name the theories/Prop*.v print.
With the outputs of an earlier run in a directory given as argument, reads those instead."""
import glob, os, re, subprocess, sys, tempfile
root = os.path.dirname(os.path.dirname(os.path.abspath(__file__)))
th = os.path.join(root, "rocq", "theories")
groups = {}
# the primitive types and operations of PrimFloat and PrimInt63 that Print Assumptions lists
PRIM = set("float int abs add sub mul div opp sqrt eqb ltb leb frshiftexp ldshiftexp normfr_mantissa of_uint63 "
           "land lor lsl lsr".split())
JOBS = 3
files = sorted(glob.glob(os.path.join(th, "Prop*.v")))
listed = [(os.path.basename(f)[:-2], re.findall(r"^\s*Print Assumptions (\w+)", open(f).read(), re.M)) for f in files]
d = sys.argv[1] if len(sys.argv) > 1 else tempfile.mkdtemp()
if len(sys.argv) == 1:
    running = []
    for k in range(JOBS):
        with open(os.path.join(d, "g%d.v" % k), "w") as o:
            for m, _ in listed[k::JOBS]:
                o.write("From Verif Require %s.\n" % m)
            for m, names in listed[k::JOBS]:
                for n in names:
                    o.write("Print Assumptions %s.%s.\n" % (m, n))
        running.append(subprocess.Popen(["coqc", "-Q", th, "Verif", "g%d.v" % k], cwd=d,
                                        stdout=open(os.path.join(d, "g%d.out" % k), "w")))
    for p in running:
        assert p.wait() == 0
for k in range(JOBS):
    names = [n for _, ns in listed[k::JOBS] for n in ns]
    out = open(os.path.join(d, "g%d.out" % k)).read()
    blocks = re.findall(r"^(Closed under the global context|(?:Axioms|Section Variables):\n(?:(?!Axioms:|Closed under|Section Variables:).*\n?)*)", out, re.M)
    assert len(blocks) == len(names), (k, len(blocks), len(names))
    for n, b in zip(names, blocks):
        ax = tuple(sorted(set(re.findall(r"^([\w.]+)\s*(?::|$)", b, re.M)) - {"Axioms", "Section", "Closed"}))
        prim = lambda a: a.split(".")[-1] in PRIM
        if any(map(prim, ax)):
            ax = ("primitive floats and ints",) + tuple(
                a if "." in a else "FloatAxioms." + a for a in ax if not prim(a))
        groups.setdefault(ax, []).append(n)
lines = ["# Axioms used by each property theorem", "",
         "Generated by `tools/gen_axioms.py` from the output of `Print Assumptions`.", ""]
for ax in sorted(groups, key=lambda a: (len(a), a)):
    lines += ["## " + (", ".join("`%s`" % a for a in ax) if ax else "Closed under the global context"), "",
              ", ".join(groups[ax]) + ".", ""]
open(os.path.join(root, "AXIOMS.md"), "w").write("\n".join(lines))
print({k: len(v) for k, v in groups.items()})
