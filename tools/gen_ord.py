#!/usr/bin/env python3
"""Generate rocq/theories/OrdData.v: the energy formulas (macros G, S, DGDRi, DGDSi, D2G..., D3G...) of the solution
phases with ordering parameters, expanded by the preprocessor and executed symbolically (tools/cexec.py)."""
import sys, os
sys.path.insert(0, os.path.dirname(__file__))
from cexec import *
import gen_soln as gs

# file, suffix, structural state (clino), linear solver used by order()
FS=[("amphibole","Aph",1,"LU"),("amphibole","Aph",0,"LU"),("biotiteTaj","Taj",1,"Inverse"),("clinopyroxene","Cpx",1,"LU"),("cummingtonite","Cum",1,"LU"),
    ("melilite","Mel",1,"LU"),("nepheline","Nph",1,"LU"),("olivine","Olv",1,"SVD"),("ortho-oxide","Oox",1,"LU"),("orthopyroxene","Opx",0,"LU"),
    ("rhombohedral","Rhm",1,"LU"),("spinel","Spn",1,"LU")]
def find(b, out):
    for s in b:
        if s[0] in("while","dowhile"): out.append(s)
        elif s[0]=="block": find(s[1],out)
        elif s[0]=="if":
            find([s[2]],out)
            if s[3]: find([s[3]],out)
        elif s[0]=="for": find([s[4]],out)
T,PV,R0,S0=0,1,2,40
def V(n): return ("v",n)
HI=num(F(2**52-1,2**52))
ARR={"d2gdr2":"RR","d2gdrds":"RS","d2gdrdt":"Rt","d2gdrdp":"Rp","d2gds2":"SS","d2gdsdt":"St","d2gdsdp":"Sp",
 "d3gdr3":"RRR","d3gdr2ds":"RRS","d3gdr2dt":"RRt","d3gdr2dp":"RRp","d3gdrds2":"RSS","d3gdrdsdt":"RSt","d3gdrdsdp":"RSp","d3gds3":"SSS","d3gds2dt":"SSt","d3gds2dp":"SSp",
 "d3gdsdt2":"Stt","d3gdsdtdp":"Stp","d3gdsdp2":"Spp","d3gdrdt2":"Rtt","d3gdrdtdp":"Rtp","d3gdrdp2":"Rpp"}
SC={"D2GDT2":"tt","D2GDTDP":"tp","D2GDP2":"pp","D3GDT3":"ttt","D3GDT2DP":"ttp","D3GDTDP2":"tpp","D3GDP3":"ppp"}
class U2(Unit):
    def __init__(self, path, tail):
        self.path=path
        src=open(path,errors="replace").read()
        src=re.sub(r"^\s*#\s*include.*$","",src,flags=re.M)+"\n"+tail
        r=subprocess.run(["cpp","-P","-undef","-w","-std=c99",*DEFS],input=src,capture_output=True,text=True)
        if r.returncode: raise SystemExit(r.stderr)
        self.src=r.stdout; self.raw=open(path,errors="replace").read().split("\n"); self.globals={}
        for m in re.finditer(r"^\s*static\s+(?:const\s+)?double\s+([^;{}=]*=[^;{}]*);", self.src, re.M):
            for d in m.group(1).split(","):
                mm=re.match(r"\s*(\w+)\s*=\s*(.+?)\s*$",d,re.S)
                if mm: self.globals[mm.group(1)]=mm.group(2)
def load_phase(f, clino):
    path="/repo/sources/"+f+".c"
    raw=open(path,errors="replace").read()
    na,nr,ns=[int(re.search(r"#define\s+"+n+r"\s+(\d+)",raw).group(1)) for n in("NA","NR","NS")]
    hasV = re.search(r"#define\s+V\s",raw) is not None
    tail="void verif_fill(void) {\n"
    for a in ARR: tail+=f"fill{a.upper()}\n"
    for s in SC: tail+=f"z_{s}[0] = {s};\n"
    for m in ["G","H","S"]+(["V"] if hasV else []): tail+=f"z_{m}[0] = {m};\n"
    for i in range(nr): tail+=f"z_R[{i}] = DGDR{i};\n"
    for i in range(ns): tail+=f"z_S1[{i}] = DGDS{i};\n"
    if "define ENDMEMBERS" in raw:
        tail+="z_E[0] = ENDMEMBERS;\n"
        for i in range(nr): tail+=f"z_D[{i}] = DENDDR{i};\n"
    tail+="z_T[0] = DGDT; z_P[0] = DGDP;\n}\n"
    u=U2(path,tail)
    ps,b=u.func("order")
    clamps={}; special=[]; sites={}
    def loadh(n,ix):
        if n in("r","x") and len(ix)==1: return("d",V(R0+ix[0]))
        if n=="ends" and len(ix)==1: return("d",V(60+ix[0]))
        if n in("s","sNew") and len(ix)==1: return("d",V(S0+ix[0]))
    X=Exec(u,{"t":("d",V(T)),"p":("d",V(PV)),"clino":("i",clino)},{"load":loadh})
    free=set(re.findall(r"[A-Za-z_]\w*",u.src[u.src.index("void verif_fill"):]))
    def walk(l,inif):
        for s in l:
            k=s[0]
            if k=="block": walk(s[1],inif)
            elif k=="if":
                c,bb=s[1],s[2]
                if s[3] is None and c[0]=="bin" and c[1] in("<=",">=") and c[2][0]=="id" and bb[0]=="expr" and bb[1][0]=="assign" and bb[1][2]==c[2] and c[2][1] in sites:
                    w=X.tod(X.ev(c[3]))[1]; a=X.tod(X.ev(bb[1][3]))[1]
                    if isn(w) and isn(a):
                        if (c[1],w,a) not in clamps.setdefault(c[2][1],[]): clamps[c[2][1]].append((c[1],w,a))
                        continue
                if not deep(s): special.append(s)
                else:
                    walk([s[2]],inif+deepskip(s)); 
                    if s[3]: walk([s[3]],inif+1)
            elif k in("for",): walk([s[4]],inif)
            elif k=="while": walk([s[2]],inif)
            elif k=="dowhile": walk([s[1]],inif)
            elif k=="expr" and s[1][0]=="assign" and s[1][1]=="=" and s[1][2][0]=="id":
                n=s[1][2][1]
                if n not in free: continue
                try: v=X.tod(X.ev(s[1][3]))[1]
                except (Unsupported,IndexError) as ex: 
                    if n in free and n not in ("s",): pass
                    continue
                if isn(v): continue
                if n in sites: assert sites[n]==v,(n,sites[n],v)
                sites[n]=v; X.env[n]=("d",v)
            elif k=="decl" and s[1]==["double"]:
                for n,dims,init,st in s[2]:
                    if n in free and init is not None and not dims and not st: raise SystemExit("declared in a loop: "+n)
    def deepskip(s): return 0
    first=[0]
    def deep(s):
        # the outermost "recompute" branch
        if first[0]==0: first[0]=1; return True
        return False
    walk(b,0)
    return u,X,sites,clamps,special,(na,nr,ns,hasV)

def prodOfSites(x): return x[0] == "site" or (x[0] in ("*", "/") and prodOfSites(x[1]) and prodOfSites(x[2]))
def fix(x, S):
    """as gen_soln.fix; the logarithm of a product or ratio of clamped fractions is the sum or difference of their logarithms"""
    k = x[0]
    if k == "log" and x[1][0] in ("*", "/") and prodOfSites(x[1]):
        return ("-" if x[1][0] == "/" else "+", fix(("log", x[1][1]), S), fix(("log", x[1][2]), S))
    if k in ("n", "v", "site"): return x
    if k == "neg": return ("neg", fix(x[1], S))
    if k in "+-*": return (k, fix(x[1], S), fix(x[2], S))
    if k == "/": return ("/", fix(x[1], S), gs.fixden(x[2], S))
    return gs.fix(x, S)
DIM = {"R": 0, "S": 1}
def lines(raw, macro):
    """lines of the #define's of a macro family"""
    l = [i + 1 for i, s in enumerate(raw) if re.match(r"\s*#\s*define\s+" + macro + r"\b", s)]
    return (min(l), max(l)) if l else None
def phase_data(f, suf, clino, solver):
    u, X, sites, clamps, special, (na, nr, ns, hasV) = load_phase(f, clino)
    S = gs.Sites()
    Y = Exec(u, dict(X.env), X.hooks)
    for n, v in sites.items():
        cl = [(c, w[1], a[1]) for c, w, a in clamps.get(n, [])]
        lo = [c for c in cl if c[0] == "<="]; hi = [c for c in cl if c[0] == ">="]
        E = F(1, 2**52)
        assert len(lo) <= 1 and len(hi) <= 1 and len(cl) == len(lo) + len(hi)
        kind = ("Free" if not cl else "Low0" if not hi and lo[0] == ("<=", 0, E) else "Low" if not hi and lo[0] == ("<=", E, E)
                else "Both0" if lo[0] == ("<=", 0, E) and hi[0] == (">=", 1, 1 - E) else "Both" if lo[0] == ("<=", E, E) and hi[0] == (">=", 1 - E, 1 - E)
                else "Third" if lo[0] == ("<=", E, E) and hi[0] == (">=", F(1, 3) - E, F(1, 3) - E) else None)
        assert kind, (f, n, cl)
        Y.env[n] = ("d", S.get(v, kind))
    ps, b = u.func("verif_fill"); Y.run(b)
    A = Y.arr
    def arr(name, kinds):
        dims = [(nr, ns)[DIM[k]] for k in kinds if k in DIM]
        return gs.nest(lambda ix: fix(A[name][ix][1], S), dims)
    o = {"g": fix(A["z_G"][(0,)][1], S), "s": fix(A["z_S"][(0,)][1], S), "v": fix(A["z_P"][(0,)][1], S),
         "r1": arr("z_R", "R"), "s1": arr("z_S1", "S")}
    for a, k in ARR.items(): o[a] = arr(a, k)
    for a, k in SC.items(): o[a] = fix(A["z_" + a][(0,)][1], S)
    if hasEnds(f):
        o["end"] = fix(A["z_E"][(0,)][1], S); o["dend"] = gs.nest(lambda ix: fix(A["z_D"][ix][1], S), [nr])
    return o, S, (na, nr, ns)
def hasEnds(f): return "define ENDMEMBERS" in open("/repo/sources/" + f + ".c", errors="replace").read()
ORDER = [("d2gdr2","fillD2GDR2"),("d2gdrds","fillD2GDRDS"),("d2gdrdt","fillD2GDRDT"),("d2gdrdp","fillD2GDRDP"),("d2gds2","fillD2GDS2"),("d2gdsdt","fillD2GDSDT"),("d2gdsdp","fillD2GDSDP"),
  ("d3gdr3","fillD3GDR3"),("d3gdr2ds","fillD3GDR2DS"),("d3gdr2dt","fillD3GDR2DT"),("d3gdr2dp","fillD3GDR2DP"),("d3gdrds2","fillD3GDRDS2"),("d3gdrdsdt","fillD3GDRDSDT"),("d3gdrdsdp","fillD3GDRDSDP"),
  ("d3gds3","fillD3GDS3"),("d3gds2dt","fillD3GDS2DT"),("d3gds2dp","fillD3GDS2DP"),("d3gdsdt2","fillD3GDSDT2"),("d3gdsdtdp","fillD3GDSDTDP"),("d3gdsdp2","fillD3GDSDP2"),
  ("d3gdrdt2","fillD3GDRDT2"),("d3gdrdtdp","fillD3GDRDTDP"),("d3gdrdp2","fillD3GDRDP2")]
ORDER += [(s, s) for s in SC]
def main():
    out = ["""(** GENERATED by tools/gen_ord.py from /repo/sources: do not edit. The energy formulas of the solution phases that
    have ordering parameters: macros expanded, exact rationals for literals. Variable 0 is t, 1 is p, 2+i is r[i],
    40+k is s[k], 60+i is ends[i]. *)
From Coq Require Import QArith NArith List String.
From Verif Require Import Sym SolnModel OrdModel.
Import List ListNotations.
Local Open Scope N_scope.
Local Open Scope Q_scope.
Local Open Scope string_scope.
Local Open Scope sym_scope.
Arguments Num _%Q. Arguments Var _%N. Arguments Site _%N. Arguments Log _%N.
"""]
    names = []
    for f, suf, clino, solver in FS:
        o, S, (na, nr, ns) = phase_data(f, suf, clino, solver)
        nm = "o" + suf + ("" if not (f == "amphibole" and clino == 0) else "_ortho")
        names.append(nm)
        raw = open("/repo/sources/" + f + ".c", errors="replace").read().split("\n")
        def cite(m):
            l = lines(raw, m)
            return f"sources/{f}.c {l[0]}" if l and l[0] == l[1] else f"sources/{f}.c {l[0]}-{l[1]}" if l else f"sources/{f}.c"
        def emit(key, macro, text, val):
            out.append(f"(** {cite(macro)}: {text} *)\nDefinition {nm}_{key} :=\n  {gs.coql(val)}.")
        emit("g", "G", "macro G", o["g"]); emit("s", "S", "macro S", o["s"]); emit("v", "DGDP", "macro DGDP", o["v"])
        emit("r1", r"DGDR\d", "macros DGDRi", o["r1"]); emit("s1", r"DGDS\d", "macros DGDSi", o["s1"])
        for key, macro in ORDER: emit(key, macro, "macro " + macro, o[key])
        if hasEnds(f):
            emit("end", "ENDMEMBERS", "macro ENDMEMBERS", o["end"]); emit("dend", r"DENDDR\d", "macros DENDDRi", o["dend"])
        out.append(f"(** sources/{f}.c, order: the site fractions and their clamps *)")
        out.append(f"Definition {nm}_sites := [" + ";\n    ".join(f"mkSite ({gs.coq(r)}) {k}" for r, k in S.l) + "].")
        swap = "true" if any("d2gds2[k][l]*dsdr[l][j]*d2sdrdt[k][i]" in l for l in raw) else "false"
        ends = f"(Some ({nm}_end, {nm}_dend))" if hasEnds(f) else "None"
        title = f + (" (orthorhombic)" if nm.endswith("ortho") else "")
        out.append(f'Definition {nm} := mkOrd "{title}" {na} {nr} {ns} {solver} {swap} {nm}_sites {ends} {nm}_g {nm}_s {nm}_v {nm}_r1 {nm}_s1\n  '
          + " ".join(f"{nm}_{k}" for k, _ in ORDER) + ".")
    out.append("Definition ordPhases : list ordPhase := [" + "; ".join(names) + "].")
    open(os.path.join(os.path.dirname(os.path.abspath(__file__)), "../rocq/theories/OrdData.v"), "w").write("\n".join(out) + "\n")
if __name__ == "__main__": main()
