#!/usr/bin/env python3
"""Generate rocq/theories/SolnData.v: the public functions of the solution
phases without ordering parameters, executed symbolically (tools/cexec.py)."""
import sys, os
sys.path.insert(0, os.path.dirname(__file__))
from cexec import *

SRC = "/repo/sources/"
PHASES = [("feldspar", "Fld"), ("garnet", "Grn"), ("biotite", "Bio"), ("hornblende", "Hrn"), ("leucite", "Leu"), ("majorite", "Maj"),
          ("olivine-sx", "Osx"), ("perovskite", "Pvk"), ("ringwoodite", "Rgw"), ("wadsleyite", "Wds"), ("wustite", "Wus"), ("ilmenite", "Ilm"),
          ("alloy-liquid", "AlL"), ("alloy-solid", "AlS"), ("kalsilite", "Kal")]
T, Pv, R0, M0, S0 = 0, 1, 2, 20, 40
def V(n): return ("v", n)

class Sites:
    def __init__(self): self.l = []
    def get(self, raw, clamped):
        k = {True: "Low", False: "Free"}.get(clamped, clamped)
        if (raw, k) not in self.l: self.l.append((raw, k))
        return ("site", self.l.index((raw, k)))
    def unsite(self, x):
        """the argument of a logarithm computed from clamped fractions: written with the fractions themselves"""
        if x[0] == "site": return self.l[x[1]][0]
        if x[0] in "+-*/": return (x[0], self.unsite(x[1]), self.unsite(x[2]))
        if x[0] == "neg": return ("neg", self.unsite(x[1]))
        return x

def fix(x, S):
    """logs and denominators only of site fractions (hoist others as unclamped sites)"""
    k = x[0]
    if k in ("n", "v", "site"): return x
    if k == "clamp": return S.get(x[1], x[2])
    if k == "log":
        a = fix(x[1], S)
        if a[0] != "site": a = S.get(S.unsite(a), False)
        return ("log", a)
    if k == "neg": return ("neg", fix(x[1], S))
    if k == "/": return ("/", fix(x[1], S), fixden(x[2], S))
    if k in "+-*": return (k, fix(x[1], S), fix(x[2], S))
    if k == "exp": return ("exp", fix(x[1], S))
    raise Unsupported("fix %r" % (x,))
def fixden(x, S):
    k = x[0]
    if k == "site" or (k == "n" and x[1] != 0): return x
    if k == "v" and x[1] == T: return x
    if k == "*": return ("*", fixden(x[1], S), fixden(x[2], S))
    if k == "neg": return ("neg", fixden(x[1], S))
    if k == "clamp": return fix(x, S)
    return S.get(S.unsite(fix(x, S)), False)

def q(f):
    n, d = f.numerator, f.denominator
    return f"({n}#{d})" if n >= 0 else f"(-{-n}#{d})"
def coq(x, lv=0):
    """lv: 0 sum, 1 product left, 2 right operand / factor"""
    k = x[0]
    if k == "n": return f"Num {q(x[1])}" if lv < 3 else f"(Num {q(x[1])})"
    if k == "v": return f"Var {x[1]}" if lv < 3 else f"(Var {x[1]})"
    if k == "site": return f"Site {x[1]}" if lv < 3 else f"(Site {x[1]})"
    if k == "log": return f"Log {x[1][1]}" if lv < 3 else f"(Log {x[1][1]})"
    if k == "neg": return f"(- {coq(x[1], 2)})"
    if k in "+-":
        r = f"{coq(x[1], 0)} {k} {coq(x[2], 1)}"
        return f"({r})" if lv > 0 else r
    r = f"{coq(x[1], 1)} {k} {coq(x[2], 2)}"
    return f"({r})" if lv > 1 else r

def nest(f, dims):
    if not dims: return f(())
    def go(ix):
        if len(ix) == len(dims): return f(ix)
        return [go(ix + (i,)) for i in range(dims[len(ix)])]
    return go(())
def coql(x):
    if isinstance(x, list): return "[" + ";\n    ".join(coql(y) for y in x) + "]"
    return coq(x) 

HI = num(F(2**52 - 1, 2**52))
def clampif(X, s):
    """if (x <= DBL_EPSILON) x = DBL_EPSILON;  if (x >= 1.0 - DBL_EPSILON) x = 1.0 - DBL_EPSILON;"""
    c, b = s[1], s[2]
    if s[3] is not None or c[0] != "bin" or c[1] not in ("<=", ">=") or c[2][0] != "id": return False
    v = X.ev(c[2]); w = X.ev(c[3])
    if v[0] != "d" or w[1] not in (EPS, HI): return False
    assert b[0] == "expr" and b[1][0] == "assign" and b[1][2] == c[2] and X.ev(b[1][3]) == w
    if c[1] == "<=" and w[1] == EPS: n = ("clamp", v[1], "Low")
    else:
        assert c[1] == ">=" and w[1] == HI and v[1][0] == "clamp" and v[1][2] == "Low"
        n = ("clamp", v[1][1], "Both")
    X.env[c[2][1]] = ("d", n)
    return True

def run(u, fn, mask, S, f=None):
    def ite(c, a, b):
        if c[0] in (">", ">=") and c[2] == EPS and c[1] == a and b == EPS: return S.get(a, True)
    def assume(c):
        if c[0] == ">" and c[1][0] in ("site", "clamp") and c[2] == ZERO: return True   # a site fraction is at least DBL_EPSILON
        if c[0] == ">" and c[1] == V(R0 + 1) and c[2] == ZERO and f == "kalsilite": return True   # the penalty term, r[1] > 0.0
    def load(n, ix):
        if n in ("x", "r") and len(ix) == 1: return ("d", V(R0 + ix[0]))
    env = {"t": ("d", V(T)), "p": ("d", V(Pv)), "mask": ("i", mask)}
    ps, b = u.func(fn)
    X = Exec(u, env, {"ite": ite, "load": load, "assume": assume, "if": clampif})
    X.run(b)
    return X

def con(u, fn, im, om, zero, snapped=None):
    def assume(c):
        if c[0] == "==" and c[2] == ZERO: return zero
        if c[0] == "!=" and c[2] == ZERO: return not zero
        if c[0] == "<" and c[1][0] == "fabs" and isn(c[2]):
            snapped.append((c[1][1], c[2][1])); return False
    def load(n, ix):
        if len(ix) == 1 and n == "m": return ("d", V(M0 + ix[0]))
        if len(ix) == 1 and n == "r": return ("d", V(R0 + ix[0]))
    env = {"t": ("d", V(T)), "p": ("d", V(Pv)), "inpMask": ("i", im), "outMask": ("i", om)}
    ps, b = u.func(fn)
    X = Exec(u, env, {"load": load, "assume": assume})
    X.run(b)
    return X

def con_data(u, suf, na, nr, CS):
    """conXxx with inpMask SECOND (sum of moles nonzero) and THIRD"""
    o = {}
    X = con(u, "con" + suf, 2, 4 | 8 | 16 | 32 | 128, False)
    sm = V(M0)
    for i in range(1, na): sm = add(sm, V(M0 + i))
    assert CS.get(sm, False) == ("site", 0)
    A = X.arr
    def den(x):
        k = x[0]
        if x == sm: return ("site", 0)
        if k in ("n", "v"): return x
        if k == "neg": return ("neg", den(x[1]))
        return (k, den(x[1]), den(x[2]))
    o["r"] = nest(lambda ix: den(A["r"][ix][1]), [nr])
    o["x"] = nest(lambda ix: den(A["x"][ix][1]), [na])
    o["dm"] = nest(lambda ix: den(A["dm"][ix][1]), [nr, na])
    o["d2m"] = nest(lambda ix: den(A["d2m"][ix][1]), [nr, na, na])
    o["d3m"] = nest(lambda ix: den(A["d3m"][ix][1]), [nr, na, na, na])
    Z = con(u, "con" + suf, 2, 4 | 8 | 16 | 32 | 128, True).arr
    for n in ("r", "x", "dm", "d2m", "d3m"):
        assert all(v[1] == ZERO for v in Z[n].values()), (suf, n)
    sn = []
    B = con(u, "con" + suf, 4, 8 | 64, False, sn).arr
    o["xr"] = nest(lambda ix: B["x"][ix][1], [na])
    o["dr"] = nest(lambda ix: B["dr"][ix][1], [na, nr])
    o["snap"] = sn
    return o

def phase(f, suf, out):
    u = Unit(SRC + f + ".c")
    na, nr = [int(re.search(r"#define\s+" + n + r"\s+(\d+)", "\n".join(u.raw)).group(1)) for n in ("NA", "NR")]
    S = Sites()
    D = {}
    def put(name, X, arr, dims):
        D[name] = nest(lambda ix: fix(X.arr[arr][ix if ix else (0,)][1], S), dims)
    X = run(u, "gmix" + suf, 15, S, f)
    put("g0", X, "gmix", []); put("g1", X, "dx", [nr]); put("g2", X, "dx2", [nr, nr]); put("g3", X, "dx3", [nr, nr, nr])
    X = run(u, "hmix" + suf, 1, S, f); put("h0", X, "hmix", [])
    X = run(u, "smix" + suf, 7, S, f); put("s0", X, "smix", []); put("s1", X, "dx", [nr]); put("s2", X, "dx2", [nr, nr])
    X = run(u, "cpmix" + suf, 7, S, f); put("c0", X, "cpmix", []); put("ct", X, "dt", []); put("c1", X, "dx", [nr])
    X = run(u, "vmix" + suf, 1023, S, f)
    put("v0", X, "vmix", []); put("v1", X, "dx", [nr]); put("v2", X, "dx2", [nr, nr])
    for a, b in (("vt", "dt"), ("vp", "dp"), ("vtt", "dt2"), ("vtp", "dtdp"), ("vpp", "dp2")): put(a, X, b, [])
    put("v1t", X, "dxdt", [nr]); put("v1p", X, "dxdp", [nr])
    X = run(u, "act" + suf, 7, S, f)
    put("mu", X, "mu", [na])
    def a_(ix):
        e = X.arr["a"][ix][1]; assert e[0] == "exp"; return fix(e[1], S)
    D["aArg"] = nest(a_, [na])
    darg = {}
    def da(ix):
        e = X.arr["dx"][ix][1]; assert e[0] == "*" and e[1][0] == "exp", e[0]
        assert fix(e[1][1], S) == D["aArg"][ix[0]]
        return fix(e[2], S)
    D["aDx"] = nest(da, [na, nr])
    L = lambda n: "%d-%d" % u.lines(n + suf)
    low = suf
    for n, (c, fn) in {"g0": ("*gmix", "gmix"), "g1": ("dx[i]", "gmix"), "g2": ("dx2[i][j]", "gmix"), "g3": ("dx3[i][j][k]", "gmix"), "h0": ("*hmix", "hmix"),
                       "s0": ("*smix", "smix"), "s1": ("dx[i]", "smix"), "s2": ("dx2[i][j]", "smix"), "c0": ("*cpmix", "cpmix"), "ct": ("*dt", "cpmix"), "c1": ("dx[i]", "cpmix"),
                       "v0": ("*vmix", "vmix"), "v1": ("dx[i]", "vmix"), "v2": ("dx2[i][j]", "vmix"), "vt": ("*dt", "vmix"), "vp": ("*dp", "vmix"), "vtt": ("*dt2", "vmix"), "vtp": ("*dtdp", "vmix"), "vpp": ("*dp2", "vmix"),
                       "v1t": ("dxdt[i]", "vmix"), "v1p": ("dxdp[i]", "vmix"), "mu": ("mu[i]", "act"), "aArg": ("a[i] is exp of", "act"), "aDx": ("dx[i][k] is a[i] times", "act")}.items():
        out.append(f"(** sources/{f}.c {L(fn)}: {fn}{suf}, output {c} *)\nDefinition {low}_{n} :=\n  {coql(D[n])}.")
    def ms(r, c): return "mkSite (%s) %s" % (coq(fix(r, S)), c)
    n0 = -1
    while n0 != len(S.l):      # fixing a raw expression may add further sites
        n0 = len(S.l); [fix(r, S) for r, c in S.l]
    si = ";\n   ".join(ms(r, c) for r, c in S.l)
    out.append(f"(** the site fractions of sources/{f}.c (first lines of each function); clamped: (x > DBL_EPSILON) ? x : DBL_EPSILON;\n    unclamped: an argument of log or a denominator that the code does not guard *)\nDefinition {low}_sites : list site :=\n  [{si}].")
    out.append(f"""Definition {low} : phase :=
  mkPhase "{f}" {na} {nr} con{low} {low}_sites {low}_g0 {low}_g1 {low}_g2 {low}_g3 {low}_h0 {low}_s0 {low}_s1 {low}_s2 {low}_c0 {low}_ct {low}_c1
    {low}_v0 {low}_v1 {low}_v2 {low}_vt {low}_vp {low}_vtt {low}_vtp {low}_vpp {low}_v1t {low}_v1p {low}_mu {low}_aArg {low}_aDx.
""")

def conphase(f, suf, out):
    u = Unit(SRC + f + ".c")
    na, nr = [int(re.search(r"#define\s+" + n + r"\s+(\d+)", "\n".join(u.raw)).group(1)) for n in ("NA", "NR")]
    CS = Sites()
    C = con_data(u, suf, na, nr, CS)
    L = lambda n: "%d-%d" % u.lines(n + suf)
    low = suf
    for n, (c, ms) in {"r": ("r[i] from m", "SECOND"), "x": ("x[i] from m", "SECOND"), "dm": ("dm[i][j]", "SECOND"), "d2m": ("d2m[i][j][k]", "SECOND"), "d3m": ("d3m[i][j][k][l]", "SECOND"), "xr": ("x[i] from r", "THIRD"), "dr": ("dr[i][j]", "THIRD")}.items():
        out.append(f"(** sources/{f}.c {L('con')}: con{suf}, inpMask {ms}, output {c} *)\nDefinition {low}_con_{n} :=\n  {coql(C[n])}.")
    snap = "; ".join(f"({C['xr'].index(a)}%nat, {q(b)})" for a, b in C["snap"])
    out.append(f"(** sources/{f}.c {L('con')}: x[i] from r is set to zero when it is smaller in absolute value than this number *)\nDefinition {low}_con_snap : list (nat * Q) := [{snap}].")
    out.append(f"""Definition con{low} : conv :=
  mkConv "{f}" {na} {nr} {low}_con_r {low}_con_x {low}_con_dm {low}_con_d2m {low}_con_d3m {low}_con_xr {low}_con_dr {low}_con_snap.
""")

ALL = PHASES + [("amphibole", "Aph"), ("biotiteTaj", "Taj"), ("clinopyroxene", "Cpx"), ("cummingtonite", "Cum"), ("melilite", "Mel"), ("nepheline", "Nph"),
    ("olivine", "Olv"), ("ortho-oxide", "Oox"), ("orthopyroxene", "Opx"), ("rhombohedral", "Rhm"), ("rhomsghiorso", "Msg"), ("spinel", "Spn"), ("fluidPhase", "Flu")]

if __name__ == "__main__":
    out = ["(** GENERATED by tools/gen_soln.py from /repo/sources: do not edit. The public functions of the solution phases that\n    have no ordering parameters, as expressions: loops over components are unrolled, macros expanded, exact rationals for literals. *)",
           "From Coq Require Import QArith NArith List String.\nFrom Verif Require Import Sym SolnModel ConData.\nImport List ListNotations.\nLocal Open Scope N_scope.\nLocal Open Scope Q_scope.\nLocal Open Scope string_scope.\nLocal Open Scope sym_scope.\nArguments Num _%Q. Arguments Var _%N. Arguments Site _%N. Arguments Log _%N.\n"]
    for f, suf in PHASES: phase(f, suf, out)
    out.append("Definition phases : list phase := [" + "; ".join(s for _, s in PHASES) + "].\n")
    open(os.path.join(os.path.dirname(__file__), "../rocq/theories/SolnData.v"), "w").write("\n".join(out))

    H = "From Coq Require Import QArith NArith List String.\nFrom Verif Require Import Sym SolnModel.\nImport List ListNotations.\nLocal Open Scope N_scope.\nLocal Open Scope Q_scope.\nLocal Open Scope string_scope.\nLocal Open Scope sym_scope.\nArguments Num _%Q. Arguments Var _%N. Arguments Site _%N. Arguments Log _%N.\n"
    out = ["(** GENERATED by tools/gen_soln.py from /repo/sources: do not edit. The conversion functions conXxx of the 28 solid, fluid and\n    alloy solution phases (inpMask SECOND: from moles of components; THIRD: from the independent variables). *)", H]
    for f, suf in ALL: conphase(f, suf, out)
    out.append("Definition convs : list conv := [" + "; ".join("con" + s for _, s in ALL) + "].\n")
    open(os.path.join(os.path.dirname(__file__), "../rocq/theories/ConData.v"), "w").write("\n".join(out))
