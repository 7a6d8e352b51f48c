#!/usr/bin/env python3
"""Writes section 5 of DESIGN.md: what Print Assumptions lists for each theorem of MANIFEST.json.
Needs the compiled files of rocq/theories."""
import glob, json, os, re, subprocess, tempfile
here = os.path.dirname(os.path.abspath(__file__))
top = os.path.join(here, "..")
theorems = []
for c in json.load(open(os.path.join(top, "MANIFEST.json")))["claims"]:
    theorems += [t for t in c["theorems"] if t not in theorems]
where = {}
for f in sorted(glob.glob(os.path.join(top, "rocq/theories/P_*.v"))):
    for t in re.findall(r"^\s*(?:Theorem|Lemma|Corollary)\s+([\w']+)", open(f).read(), re.M):
        where.setdefault(t, os.path.basename(f)[:-2])
text = "From Verif Require " + " ".join(sorted({where[t] for t in theorems})) + ".\n"
for t in theorems:
    text += f'Goal True. idtac "@@ {t}". exact I. Qed.\nPrint Assumptions {where[t]}.{t}.\n'
with tempfile.TemporaryDirectory() as d:
    open(os.path.join(d, "pa.v"), "w").write(text)
    out = subprocess.run(["coqc", "-Q", "theories", "Verif", os.path.join(d, "pa.v")], cwd=os.path.join(top, "rocq"),
                         capture_output=True, text=True, check=True).stdout
groups = {}
for block in out.split("@@ ")[1:]:
    name, rest = block.split("\n", 1)
    axioms = () if "Closed under" in rest else tuple(sorted(a for a in re.findall(r"^([A-Za-z_][\w.']*)\s*(?::|$)", rest, re.M) if a != "Axioms"))
    groups.setdefault(axioms, []).append(name)
assert sum(map(len, groups.values())) == len(theorems)
lines = ["## 5. What `Print Assumptions` lists", "",
         f"Written by `tools/gen_assumptions.py` from the compiled files, for the {len(theorems)} theorems of `MANIFEST.json`.", ""]
for axioms, names in sorted(groups.items(), key=lambda g: len(g[0])):
    by = {}
    for n in names:
        by.setdefault(where[n], []).append(n)
    if axioms:
        lines += [f"These {len(names)} theorems rest on axioms of Coq's standard library (they enter with its real numbers, which the",
                  "floating point lemmas use): " + ", ".join(f"`{a}`" for a in axioms) + ".", ""]
    else:
        lines += [f"These {len(names)} theorems are closed under the global context (no axioms):", ""]
    lines += [f"* `{m}.v`: " + ", ".join(ns) for m, ns in sorted(by.items())] + [""]
path = os.path.join(top, "DESIGN.md")
text = open(path).read()
new = "\n".join(lines)
if "## 5. " in text:
    a = text.index("## 5. ")
    b = text.index("## 6. ") if "## 6. " in text else len(text)
    text = text[:a] + new + "\n" + text[b:] if b < len(text) else text[:a] + new
else:
    text = text.rstrip() + "\n\n" + new
open(path, "w").write(text)
