#!/usr/bin/env python3
"""Generate the table part of rocq/theories/EvalTable.v from the method wrappers in preliz/distributions/*.py (read as text).

Every wrapper is `def m(self, x): return ptd_m(x, self.a, ...)` around `def ptd_m(x, a, ...): return module.m(x, a, ...)`;
the script writes down the four lists it finds and stops if a wrapper has another shape (handled by hand in EvalModel.v)."""
import ast, glob, os, sys
repo = sys.argv[1] if len(sys.argv) > 1 else "/repo"
base = os.path.join(repo, "preliz/distributions/")
skip = {"distributions.py", "distributions_multivariate.py", "catalog.py", "plot.py", "__init__.py", "categorical.py",
        "continuous_multivariate.py", "mixture.py", "truncated.py", "censored.py", "hurdle.py"}
methods = ["pdf", "cdf", "ppf", "logpdf", "sf", "isf", "logcdf", "logsf", "logisf", "entropy", "mean", "median", "mode",
           "var", "std", "skewness", "kurtosis", "lmoment1", "lmoment2", "lmoment3", "lmoment4", "rvs"]
guarded = {("zi_binomial.py", "pdf"), ("zi_poisson.py", "pdf"), ("zi_negativebinomial.py", "pdf")}
def strs(l): return "[" + "; ".join('"%s"' % s for s in l) + "]"
print("""(** Table of the methods of the univariate families, written by tools/gen_eval.py from preliz/distributions/*.py.
    [W outer formals module target inner]: the method is `return ptd_x(outer)`, where `def ptd_x(formals): return
    module.target(inner)`. [X] is the query point, [A k] is `self.k`. For rvs the keywords size and random_state, passed
    on as size and rng, are not in the lists. The lines of both functions are cited at each entry. *)
From Coq Require Import List String.
From Verif Require Import FamModel.
Import ListNotations.
Open Scope string_scope.

Inductive method := %s.
Inductive arg := X | A (k : string).
Record wrapper := W { outer : list arg; formals : list string; library : string; target : method; inner : list string }.
""" % " | ".join("M" + m for m in methods))
names = []
for p in sorted(glob.glob(base + "*.py")):
    b = os.path.basename(p)
    if b in skip: continue
    tree = ast.parse(open(p).read())
    alias = {a.asname: a.name for n in tree.body if isinstance(n, ast.ImportFrom) and n.module == "pytensor_distributions" for a in n.names}
    cls = [n for n in tree.body if isinstance(n, ast.ClassDef)][0]
    fns = {n.name: n for n in tree.body if isinstance(n, ast.FunctionDef)}
    rows = []
    for m in methods:
        d = [n for n in cls.body if isinstance(n, ast.FunctionDef) and n.name == m]
        if not d: continue
        d = d[0]
        body = [s for s in d.body if not (isinstance(s, ast.Expr) and isinstance(s.value, ast.Constant))]
        data = [a.arg for a in d.args.args[1:]]
        if (b, m) in guarded:
            call = body[1].value
        else:
            if m == "rvs":
                assert data == ["size", "random_state"] and ast.unparse(body[0]) == "random_state = np.random.default_rng(random_state)", (b, m)
                assert len(body) == 2
                data = []
            else:
                assert len(body) == 1, (b, m)
            call = body[-1].value
        assert isinstance(call, ast.Call)
        if m == "rvs":
            assert [ast.unparse(k) for k in call.keywords] == ["size=size", "rng=random_state"]
        else:
            assert not call.keywords
        outer = []
        for a in call.args:
            s = ast.unparse(a)
            if s in data: outer.append("X")
            else:
                assert s.startswith("self."), (b, m, s)
                outer.append('A "%s"' % s[5:])
        g = fns[ast.unparse(call.func)]
        assert len(g.body) == 1 and [ast.unparse(x) for x in g.decorator_list] == ["pytensor_rng_jit" if m == "rvs" else "pytensor_jit"], (b, m)
        formals = [a.arg for a in g.args.args]
        ic = g.body[0].value
        if m == "rvs":
            assert formals[-2:] == ["size", "rng"] and [ast.unparse(k) for k in ic.keywords] == ["size=size", "random_state=rng"]
            formals = formals[:-2]
        else:
            assert not ic.keywords
        mod, fn = ast.unparse(ic.func).split(".")
        rows.append("  | M%s => Some (W [%s] %s \"%s\" M%s %s) (* %s %d-%d, %d-%d *)" % (
            m, "; ".join(outer), strs(formals), alias[mod], fn, strs([ast.unparse(a) for a in ic.args]),
            b, d.lineno, d.end_lineno, g.lineno, g.end_lineno))
    n = "wrap_" + cls.name
    names.append((cls.name, n))
    print("(** %s *)" % b)
    print("Definition %s (m : method) : option wrapper :=\n  match m with\n%s\n%s  end.\n" % (
        n, "\n".join(rows), "" if len(rows) == len(methods) else "  | _ => None\n"))
print("Definition wrap (f : family) : method -> option wrapper :=\n  match f with\n%s\n  end." % "\n".join("  | %s => %s" % x for x in names))
