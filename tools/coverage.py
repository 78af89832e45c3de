#!/usr/bin/env python3
"""Which functions of /repo are cited by the model: reads citations 'file.py a-b' in rocq/theories/*.v and maps them to functions.

Usage: coverage.py [REPO]. Prints a Markdown table."""
import ast, glob, os, re, sys
root = os.path.dirname(os.path.dirname(os.path.abspath(__file__)))
repo = sys.argv[1] if len(sys.argv) > 1 else "/repo"
files = {}
for p in glob.glob(os.path.join(repo, "preliz/**/*.py"), recursive=True):
    rel = os.path.relpath(p, repo)
    if "/tests/" in rel or rel.endswith("__init__.py"):
        continue
    funcs = []
    def visit(node, prefix):
        for ch in ast.iter_child_nodes(node):
            if isinstance(ch, ast.ClassDef):
                visit(ch, ch.name + ".")
            elif isinstance(ch, (ast.FunctionDef, ast.AsyncFunctionDef)):
                funcs.append((prefix + ch.name, ch.lineno, ch.end_lineno))
    visit(ast.parse(open(p).read()), "")
    files[rel] = funcs
by_base = {}
for rel in files:
    by_base.setdefault(os.path.basename(rel), []).append(rel)
cited = {}
for v in glob.glob(os.path.join(root, "rocq/theories/*.v")):
    text = open(v).read()
    for c in re.findall(r"\(\*.*?\*\)", text, flags=re.S):
        c = re.sub(r"\s+", " ", c)
        for m in re.finditer(r"((?:\w+/)*\w+\.py):? ?((?:(?:lines? )?\d+(?:-\d+)?(?: \([^)]*\))?(?:,? and |, | )?)+)", c):
            for rel in by_base.get(os.path.basename(m.group(1)), []):
                if not rel.endswith(m.group(1)) and "/" in m.group(1):
                    continue
                nums = re.sub(r"\([^)]*\)", "", m.group(2))
                for a, b in re.findall(r"(\d+)(?:-(\d+))?", nums):
                    cited.setdefault(rel, []).append((int(a), int(b or a)))
tot = hit = 0
rows = []
for rel in sorted(files):
    yes, no = [], []
    for n, a, b in files[rel]:
        ok = any(x <= b and y >= a for x, y in cited.get(rel, []))
        (yes if ok else no).append(n.split(".")[-1] if rel.startswith("preliz/distributions/") else n)
    tot += len(yes) + len(no); hit += len(yes)
    rows.append((rel, yes, no))
print("| file | functions cited by the model | not modelled |\n|---|---|---|")
for rel, yes, no in rows:
    if yes or no:
        print("| `%s` | %s | %s |" % (rel.replace("preliz/", "", 1), ", ".join(yes) or "none", ", ".join(no) or "none"))
print("\n%d of %d functions are cited." % (hit, tot))
