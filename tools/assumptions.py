#!/usr/bin/env python3
"""Writes the last section of DESIGN.md: what Print Assumptions lists for every theorem named in MANIFEST.json.
Needs a finished build in rocq/."""
import json, os, re, subprocess, glob, collections
root = os.path.dirname(os.path.dirname(os.path.abspath(__file__)))
rocq = os.path.join(root, "rocq")
names = [(c["property"], t) for c in json.load(open(os.path.join(root, "MANIFEST.json")))["claims"] for t in c["theorems"]]
where = {}
for f in glob.glob(os.path.join(rocq, "theories", "*.v")):
    for m in re.finditer(r"^\s*Theorem (\w+)", open(f).read(), re.M):
        where[m.group(1)] = os.path.basename(f)[:-2]
src = "".join(f"From Verif Require {m}.\n" for m in sorted({where[t] for _, t in names}))
for _, t in names:
    src += f'Goal True. idtac "@@ {t}". Abort.\nPrint Assumptions {where[t]}.{t}.\n'
tmp = "/tmp/print_assumptions.v"
open(tmp, "w").write(src)
out = subprocess.run(["coqc", "-Q", "theories", "Verif", tmp], cwd=rocq, capture_output=True, text=True)
assert out.returncode == 0, out.stderr[-2000:]
res = {}
for blk in out.stdout.split("@@ ")[1:]:
    t, _, rest = blk.partition("\n")
    ax = re.findall(r"^([\w.]+)(?= :|$)", rest, re.M)
    if "Closed under the global context" in rest:
        ax = []
    res[t.strip()] = tuple(sorted(a for a in ax if a not in ("Axioms", "Axioms:", "Closed")))
groups = collections.OrderedDict()
for p, t in names:
    groups.setdefault(res[t], []).append((p, t))
lines = ["## 5. What `Print Assumptions` lists, theorem by theorem", "",
         "Generated by `tools/assumptions.py` from the built development: only the standard library's axioms and the",
         "kernel's primitive integers and floats occur.", ""]
for g, ts in sorted(groups.items(), key=lambda kv: (len(kv[0]), kv[0])):
    axs = [a for a in g if not a.startswith("Prim")]
    prims = [a for a in g if a.startswith("Prim")]
    lines.append("### " + ("Closed under the global context" if not g else ", ".join(f"`{a}`" for a in axs) if axs else "Primitives only"))
    lines.append("")
    if prims:
        lines += ["primitives: " + ", ".join(f"`{a}`" for a in prims), ""]
    lines += [f"{len(ts)} theorems: " + ", ".join(t for _, t in ts), ""]
path = os.path.join(root, "DESIGN.md")
text = open(path).read()
after = text[text.index("\n## 6. "):] if "\n## 6. " in text else "\n"
text = text[:text.index("## 5. What `Print")] if "## 5. What `Print" in text else text.rstrip("\n") + "\n\n"
open(path, "w").write(text + "\n".join(lines) + after)
print(len(names), "theorems,", len(groups), "groups")
