#!/usr/bin/env python3
"""Regenerates the generated parts of DESIGN.md (sections 4 and 5) from the built development.

Needs a built rocq/ directory: it compiles a scratch file with one Print Assumptions per theorem of MANIFEST.json."""
import glob, json, os, re, subprocess, sys, tempfile
root = os.path.dirname(os.path.dirname(os.path.abspath(__file__)))
th = os.path.join(root, "rocq/theories")
man = json.load(open(os.path.join(root, "MANIFEST.json")))["claims"]
where = {}
comment = {}
for v in sorted(glob.glob(os.path.join(th, "*.v"))):
    text = open(v).read()
    for m in re.finditer(r"(?:\(\*\*((?:(?!\*\)).)*)\*\)\s*)?^(?:Theorem|Corollary) (C\d\d\w*)", text, flags=re.S | re.M):
        where[m.group(2)] = os.path.basename(v)[:-2]
        if m.group(1):
            comment[m.group(2)] = re.sub(r"\s+", " ", m.group(1)).strip()
names = [t for c in man for t in c["theorems"]]
mods = sorted({where[n] for n in names})
src = "".join(f"From Verif Require {m}.\n" for m in mods) + "".join(f"Print Assumptions {where[n]}.{n}.\n" for n in names)
with tempfile.TemporaryDirectory() as d:
    p = os.path.join(d, "All.v")
    open(p, "w").write(src)
    r = subprocess.run(["coqc", "-q", "-Q", th, "Verif", p], capture_output=True, text=True)
    if r.returncode:
        sys.exit(r.stderr[:2000])
blocks = re.split(r"^(?=Closed under the global context|Axioms:)", r.stdout, flags=re.M)[1:]
assert len(blocks) == len(names), (len(blocks), len(names))
ax = {}
for n, b in zip(names, blocks):
    ax[n] = () if b.startswith("Closed") else tuple(sorted(re.findall(r"^([\w.']+)\s*:", b, flags=re.M)) or sorted(re.findall(r"^([\w.']+)\s*$", b[8:], flags=re.M)))
    ax[n] = tuple(x for x in ax[n] if x != "Axioms")
groups = {}
for n in names:
    groups.setdefault(ax[n], []).append(n)
out = []
order = sorted(groups, key=len)
for i, k in enumerate(order):
    title = "closed under the global context (no axioms)" if not k else ", ".join(f"`{x}`" for x in k)
    out.append(f"* **A{i}**: {title} - {len(groups[k])} theorems")
out.append("")
out.append("| claim | theorems (axiom group) |")
out.append("|---|---|")
idx = {k: i for i, k in enumerate(order)}
for c in man:
    out.append(f"| {c['property']} | " + ", ".join(f"`{t[4:] if t.startswith(c['property']) else t}` (A{idx[ax[t]]})" for t in c["theorems"]) + " |")
assum = "\n".join(out)
cov = subprocess.run([sys.executable, os.path.join(root, "tools/coverage.py")], capture_output=True, text=True).stdout
rows = []
for line in cov.splitlines():
    m = re.match(r"\| `([^`]+)` \| (.*) \| (.*) \|$", line)
    if m:
        rows.append(f"| `{m.group(1)}` | {'none' if m.group(2)=='none' else len(m.group(2).split(', '))} | {m.group(3)} |")
tail = cov.strip().splitlines()[-1]
covt = "| file | functions cited | not modelled |\n|---|---|---|\n" + "\n".join(rows) + "\n\n" + tail
finds = []
for c in man:
    for t in c["theorems"]:
        if t.endswith("_refuted"):
            finds.append(f"* `{t}` ({where[t]}.v): {comment.get(t, '(see the statement)')}")
f = os.path.join(root, "DESIGN.md")
s = open(f).read()
def fill(s, tag, body):
    a, b = f"<!-- {tag} -->", f"<!-- end {tag} -->"
    i, j = s.index(a) + len(a), s.index(b)
    return s[:i] + "\n" + body + "\n" + s[j:]
s = fill(s, "assumptions", assum)
s = fill(s, "coverage", covt)
s = fill(s, "findings", "\n".join(finds))
open(f, "w").write(s)
print(len(names), "theorems;", len(groups), "axiom groups;", len(finds), "findings;", sum(1 for x in finds if "(see the statement)" in x), "without comment")
