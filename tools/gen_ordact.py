#!/usr/bin/env python3
"""Generate rocq/theories/OrdActData.v: the tables fr, gs, dfrdr filled in by the activity functions of the solution phases
with ordering parameters."""
import sys, os, re
sys.path.insert(0, os.path.dirname(__file__))
from cexec import *
import gen_soln as gs, gen_ord as go
def act_text(raw):
    i = re.search(r"^\s*act[A-Z]\w*\(int mask", raw, re.M).start(); j = re.search(r"^\s*gmix[A-Z]\w*\(int mask", raw, re.M).start()
    return raw[i:j], raw[:i].count("\n") + 1, raw[:j].count("\n") + 1
def main():
    out = ["""(** GENERATED by tools/gen_ordact.py from /repo/sources: do not edit. The tables that the activity functions of the
    solution phases with ordering parameters fill in: fr[i][j], gs[i][k], dfrdr[i][j]. Variable 2+i is r[i], 40+k is s[k]. *)
From Coq Require Import QArith NArith List String.
From Verif Require Import Sym SolnModel ConData OrdModel OrdData OrdActModel.
Import List ListNotations.
Local Open Scope N_scope.
Local Open Scope Q_scope.
Local Open Scope sym_scope.
Arguments Num _%Q. Arguments Var _%N. Arguments Site _%N. Arguments Log _%N.
"""]
    names = []
    for f, suf, clino, solver in go.FS:
        path = "/repo/sources/" + f + ".c"; raw = open(path, errors="replace").read()
        na, nr, ns = [int(re.search(r"#define\s+" + n + r"\s+(\d+)", raw).group(1)) for n in ("NA", "NR", "NS")]
        txt, l0, l1 = act_text(raw)
        tail = "void verif_act(void) {\n"
        dims = {"fr": nr, "gs": ns, "dfrdr": nr}; seen = set()
        for a, j, m in re.findall(r"\b(fr|gs|dfrdr)\[i\]\[(\d+)\]\s*=\s*(\w+)\(i\)\s*;", txt):
            seen.add((a, int(j)))
            for i in range(na): tail += f"{a}[{i}][{j}] = {m}({i});\n"
        for a, i, j, e in re.findall(r"\b(fr|gs|dfrdr)\[(\d+)\]\[(\d+)\]\s*=\s*([^;]*);", txt):
            seen.add((a, int(j))); tail += f"{a}[{i}][{j}] = {e};\n"
        for a, n in dims.items(): assert all((a, j) in seen for j in range(n)), (f, a, seen)
        # every use of the tables is the expected one
        for line in ("a[i] += fr[i][j]*dgdr[j];", "mu[i] += fr[i][j]*dgdr[j];", "dx[i][k] += fr[i][j]*dgdr[j];", "sum = (1.0+dfrdr[i][k])*dgdr[k];",
                     "sum += fr[i][j]*d2gdr2[j][k];", "sum += fr[i][j]*d2gdrds[j][l]*dsdr[l][k];", "sum += gs[i][j]*d2gdrds[k][j];", "sum += gs[i][j]*d2gds2[j][l]*dsdr[l][k];", "dx[i][k] *= sum/(R*t);"):
            assert line in txt, (f, line)
        assert ("mu[i]=g-mu0[i]" in txt) == go.hasEnds(f) and ("mu[i]=g," in txt) != go.hasEnds(f), f
        u = go.U2(path, tail + "}\n")
        def loadh(n, ix):
            if n in ("r", "x") and len(ix) == 1: return ("d", go.V(go.R0 + ix[0]))
            if n == "s" and len(ix) == 1: return ("d", go.V(go.S0 + ix[0]))
        X = Exec(u, {"t": ("d", go.V(0)), "p": ("d", go.V(1)), "clino": ("i", clino)}, {"load": loadh})
        ps, b = u.func("verif_act"); X.run(b)
        nm = "a" + suf + ("" if not (f == "amphibole" and clino == 0) else "_ortho"); on = "o" + nm[1:]
        S = gs.Sites()
        def asd(v): return v[1] if v[0] == "d" else num(F(v[1]))
        def tab(a): return gs.nest(lambda ix: go.fix(asd(X.arr[a][ix]), S), [na, dims[a]])
        for a in dims:
            out.append(f"(** sources/{f}.c {l0}-{l1}: {a}[i][j] *)\nDefinition {nm}_{a} :=\n  {gs.coql(tab(a))}.")
        assert not S.l
        # the composition of each end member, fr[i][j] + r[j]
        out.append(f"(** sources/{f}.c {l0}-{l1}, the activity function *)\nDefinition {nm} := mkAct {on} con{suf} {nm}_fr {nm}_gs {nm}_dfrdr.")
        names.append(nm)
    out.append("Definition ordActs : list ordAct := [" + "; ".join(names) + "].")
    open(os.path.join(os.path.dirname(os.path.abspath(__file__)), "../rocq/theories/OrdActData.v"), "w").write("\n".join(out) + "\n")
main()
