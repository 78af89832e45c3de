#!/usr/bin/env python3
"""Seeded-bug experiments. usage: mut.py SPEC.json  (list of {file, old, new, claim, breaks}).

Each edit is applied to a scratch copy of rocq/. Proofs that break are replaced by Admitted there so that the build can
go on; afterwards Print Assumptions tells which property theorems rest on a broken proof. One line per edit is appended
to seeded/LOG.jsonl.
"""
import json, os, re, shutil, subprocess, sys
SRC = os.environ.get("MUTSRC", "/verif/rocq")
def sh(cmd, cwd, t=900):
    p = subprocess.run(cmd, shell=True, cwd=cwd, capture_output=True, text=True, timeout=t)
    return p.returncode, p.stdout + p.stderr
STMT = re.compile(r"^\s*(?:Local |Global )?(Lemma|Theorem|Corollary|Example|Fact|Remark|Instance|Definition|Fixpoint)\s+([\w']+)")
def enclosing(text, line):
    L = text.split("\n")
    for i in range(min(line, len(L)) - 1, -1, -1):
        m = STMT.match(L[i])
        if m: return i, m.group(1), m.group(2)
    return None
def admit(path, line):
    """Replace the proof around a line by Admitted. Returns the lemma name or None."""
    t = open(path).read(); L = t.split("\n")
    e = enclosing(t, line)
    if not e: return None
    i, kind, name = e
    j = i
    while j < len(L) and not re.match(r"^\s*Proof\b|.*\.\s*Proof\b", L[j]): 
        j += 1
        if j > i and j < len(L) and STMT.match(L[j]): return None
    k = j
    while k < len(L) and not re.search(r"\b(Qed|Defined)\.", L[k]): k += 1
    if k >= len(L) or line - 1 > k or line - 1 < i: return None
    if line - 1 < j: return None
    head = L[j][:L[j].index("Proof")]
    tail = re.split(r"\b(?:Qed|Defined)\.", L[k], 1)[1]
    L[j:k + 1] = [head + "Admitted." + tail]
    # keep line count irrelevant: recompiled from scratch
    open(path, "w").write("\n".join(L))
    return name
def run(spec, dst):
    if os.path.exists(dst): shutil.rmtree(dst)
    shutil.copytree(SRC, dst, copy_function=shutil.copy2, symlinks=True)
    f = os.path.join(dst, "theories", spec["file"])
    t = open(f).read()
    if t.count(spec["old"]) < 1: return {"error": "pattern not found"}
    open(f, "w").write(t.replace(spec["old"], spec["new"], 1))
    t0 = os.path.getmtime(f)
    rc, out = sh("coqc -Q theories Verif theories/%s 2>&1" % spec["file"], dst)
    if rc != 0 and spec["file"].endswith("Model.v"): return {"error": "ill-typed"}
    admitted, notes = [], []
    # the files that state the claim first, then all
    ids = re.findall(r"C\d+", spec["claim"])
    near = [fn for fn in sorted(os.listdir(os.path.join(dst, "theories"))) if fn.endswith("Props.v") and
            any(re.search(r"^Theorem %s_" % i, open(os.path.join(dst, "theories", fn)).read(), re.M) for i in ids)]
    stages = [os.environ.get("MUTTARGETS", "")]
    if os.environ.get("MUTFAST") and near: stages.insert(0, " ".join("theories/%so" % fn for fn in near))
    for _ in range(60):
        try: rc, out = sh("make -k -j2 %s 2>&1" % stages[0], dst)
        except subprocess.TimeoutExpired: notes.append("timeout"); break
        if rc == 0:
            stages.pop(0)
            if stages: continue
            break
        errs = re.findall(r'File "\./theories/([\w/]+\.v)", line (\d+), characters [\d-]+:\n(?!Warning)(Error[^\n]*\n[^\n]*)?', out)
        progress = False; seen = set()
        for fn, ln, msg in errs:
            if not msg or fn in seen: continue
            seen.add(fn)
            n = admit(os.path.join(dst, "theories", fn), int(ln))
            if n: admitted.append(n); progress = True
            else: notes.append("%s:%s %s" % (fn, ln, msg.strip()[:120]))
        if not progress: break
        if os.environ.get("MUTFAST") and any(re.match(r"C\d+_", a) for a in admitted):
            notes.append("stopped at the first theorems that failed"); break
    # which property theorems rest on admitted proofs
    thms = []; mods = []
    for fn in sorted(os.listdir(os.path.join(dst, "theories"))):
        if fn.endswith("Props.v") and os.path.exists(os.path.join(dst, "theories", fn + "o")):
            if os.path.getmtime(os.path.join(dst, "theories", fn + "o")) < t0: continue    # does not depend on the edit
            names = re.findall(r"^(?:Theorem|Corollary) (C\d+_\w+)", open(os.path.join(dst, "theories", fn)).read(), re.M)
            mods.append(fn[:-2]); thms += names
    failed = []
    direct = [a for a in admitted if re.match(r"C\d+_", a)]
    if admitted and os.environ.get("MUTFAST") and direct:
        failed = direct      # enough to know that the edit is caught
    elif admitted:
        q = "From Verif Require Import %s.\n" % " ".join(mods)
        for n in thms: q += 'Goal True. idtac "@@%s". Abort.\nPrint Assumptions %s.\n' % (n, n)
        open(os.path.join(dst, "q.v"), "w").write(q)
        rc, out = sh("coqc -Q theories Verif q.v 2>&1", dst)
        for part in out.split("@@")[1:]:
            n = part.split("\n", 1)[0].strip()
            if n in admitted or any(re.search(r"^(\w+\.)*%s\b" % re.escape(a), part, re.M) for a in admitted): failed.append(n)
        failed += [a for a in admitted if re.match(r"C\d+_", a) and a not in failed]
    return {"failed": failed, "broken_lemmas": admitted, "notes": notes}
if __name__ == "__main__":
    specs = json.load(open(sys.argv[1])); dst = sys.argv[2] if len(sys.argv) > 2 else "/tmp/mut"
    for s in specs:
        r = run(s, dst)
        line = {"definition": s["definition"], "edit": s["edit"], "claim": s["claim"],
                "failed": r.get("failed", []), "broken_lemmas": r.get("broken_lemmas", [])[:12],
                "tightened": s.get("tightened", [])}
        if r.get("notes"): line["notes"] = r["notes"][:3]
        if r.get("error"): print("ERR", s["definition"], r["error"]); continue
        open("/tmp/mutlog.jsonl", "a").write(json.dumps(line) + "\n")
        print(s["definition"], "|", s["edit"], "->", len(line["failed"]), line["failed"][:6], line.get("notes", ""), flush=True)
