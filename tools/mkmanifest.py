#!/usr/bin/env python3
"""Write MANIFEST.json from the theorem names in rocq/theories/*Props.v and the notes in tools/notes.json."""
import json, re, glob, os
root = os.path.dirname(os.path.dirname(os.path.abspath(__file__)))
props = [json.loads(l) for l in open(os.path.join(root, "properties.jsonl")) if l.strip()]
notes = json.load(open(os.path.join(root, "tools", "notes.json")))
thms = {}
for f in sorted(glob.glob(os.path.join(root, "rocq/theories/*Props.v"))):
    text = re.sub(r"\(\*.*?\*\)", "", open(f).read(), flags=re.S)
    for n in re.findall(r"^\s*(?:Theorem|Corollary)\s+(\w+)", text, flags=re.M):
        m = re.match(r"C(\d+)_", n)
        if m:
            thms.setdefault("C%02d" % int(m.group(1)), []).append(n)
claims = []
for p in props:
    ns = thms.get(p["id"], [])
    note = notes.get(p["id"], {})
    status = note.get("status") or ("proved" if ns and not any(n.endswith("_partial") for n in ns) else "partial")
    text = note.get("note", "")
    refuted = [n for n in ns if n.endswith("_refuted")]
    if refuted:
        text = (text + " Counterexamples to the wider claim, named in the statement or in DESIGN.md section 5: " + ", ".join(refuted) + ".").strip()
    if ns:
        claims.append({"property": p["id"], "status": status, "theorems": ns, "note": text})
json.dump({"claims": claims}, open(os.path.join(root, "MANIFEST.json"), "w"), indent=1)
missing = [p["id"] for p in props if p["id"] not in thms]
print(len(claims), "claims;", sum(len(c["theorems"]) for c in claims), "theorems; without theorem:", missing)
