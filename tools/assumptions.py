"""Writes the last section of DESIGN.md: what Print Assumptions lists for every theorem in MANIFEST.json.

Run in a built tree: python3 tools/assumptions.py"""
import json, os, re, subprocess, tempfile
root = os.path.join(os.path.dirname(os.path.abspath(__file__)), "..")
th = os.path.join(root, "rocq", "theories")
where = {}
for f in sorted(os.listdir(th)):
    if f.endswith(".v"):
        for m in re.finditer(r"^Theorem (\w+)", open(os.path.join(th, f)).read(), re.M):
            where[m.group(1)] = f[:-2]
claims = json.load(open(os.path.join(root, "MANIFEST.json")))["claims"]
names = [(c["property"], t) for c in sorted(claims, key=lambda c: c["property"]) for t in c["theorems"]]
with tempfile.TemporaryDirectory() as d:
    src = os.path.join(d, "a.v")
    mods = sorted({where[t] for _, t in names})
    with open(src, "w") as o:
        o.write("From Verif Require " + " ".join(mods) + ".\n")
        for _, t in names:
            o.write('Goal True. idtac "@@ %s". exact I. Qed.\nPrint Assumptions Verif.%s.%s.\n' % (t, where[t], t))
    out = subprocess.run(["coqc", "-Q", th, "Verif", src], stdout=subprocess.PIPE, stderr=subprocess.STDOUT, text=True).stdout
ax = {}
for part in out.split("@@ ")[1:]:
    t, body = part.split("\n", 1)
    if "Closed under the global context" in body:
        ax[t] = []
    else:
        ax[t] = re.findall(r"^([A-Za-z_][\w.']*)\s*(?=:|\n)", body.split("Axioms:", 1)[1], re.M)
groups = sorted({tuple(sorted(v)) for v in ax.values()}, key=len)
assert set(ax) == {t for _, t in names}, set(t for _, t in names) - set(ax)
lines = ["## Assumptions", "",
         "What `Print Assumptions` lists for each theorem, written by tools/assumptions.py.  All the",
         "axioms are from Coq's standard library.", ""]
for i, g in enumerate(groups):
    lines.append("* **A%d**: %s" % (i, "closed under the global context (no axioms)" if not g else ", ".join("`%s`" % a for a in g)))
lines += ["", "| property | theorem | file | assumptions |", "|---|---|---|---|"]
for p, t in names:
    lines.append("| %s | %s | %s.v | A%d |" % (p, t, where[t], groups.index(tuple(sorted(ax[t])))))
design = os.path.join(root, "DESIGN.md")
s = open(design).read()
open(design, "w").write(s[:s.index("## Assumptions")] + "\n".join(lines) + "\n")
