#!/usr/bin/env python3
"""Read the macro-defined free-energy models of /repo/sources/<phase>.c:
parse macros to expressions, evaluate them with dual numbers, emit Coq."""
import re, math, random

class Tok:
    pass
TOKRE = re.compile(r"\s*(?:(\d+\.?\d*(?:[eE][-+]?\d+)?|\.\d+(?:[eE][-+]?\d+)?)|([A-Za-z_]\w*)|(==|>=|<=|!=|&&|\|\||[-+*/()?:<>,\[\]&!;]))")
def tokenize(s):
    out, i = [], 0
    s = s.rstrip()
    while i < len(s):
        m = TOKRE.match(s, i)
        if not m: raise SyntaxError("tok: " + s[i:i+40])
        i = m.end()
        if m.group(1): out.append(("num", m.group(1)))
        elif m.group(2): out.append(("id", m.group(2)))
        else: out.append(("op", m.group(3)))
    return out

class P:
    def __init__(self, toks): self.t, self.i = toks, 0
    def peek(self): return self.t[self.i] if self.i < len(self.t) else ("end", "")
    def nxt(self): x = self.peek(); self.i += 1; return x
    def acc(self, o):
        if self.peek() == ("op", o): self.i += 1; return True
        return False
    def exp(self, o):
        if not self.acc(o): raise SyntaxError(f"expected {o} got {self.peek()}")
    def full(self):
        e = self.cond()
        self.acc(";")
        if self.peek()[0] != "end": raise SyntaxError(f"trailing {self.t[self.i:self.i+6]}")
        return e
    def cond(self):
        c = self.cmp()
        if self.acc("?"):
            a = self.cond(); self.exp(":"); b = self.cond()
            return ("if", c, a, b)
        return c
    def cmp(self):
        a = self.add()
        for o in (">", "<", ">=", "<=", "==", "!="):
            if self.acc(o): return ("cmp", o, a, self.add())
        return a
    def add(self):
        a = self.mul()
        while True:
            if self.acc("+"): a = ("+", a, self.mul())
            elif self.acc("-"): a = ("-", a, self.mul())
            else: return a
    def mul(self):
        a = self.un()
        while True:
            if self.acc("*"): a = ("*", a, self.un())
            elif self.acc("/"): a = ("/", a, self.un())
            else: return a
    def un(self):
        if self.acc("-"): return ("neg", self.un())
        if self.acc("+"): return self.un()
        return self.prim()
    def prim(self):
        k, v = self.nxt()
        if k == "num": return ("num", v)
        if k == "id":
            if self.acc("("):
                args = [self.cond()]
                while self.acc(","): args.append(self.cond())
                self.exp(")")
                return ("call", v, args)
            if self.acc("["):
                e = self.cond(); self.exp("]")
                idx = [e]
                while self.acc("["): idx.append(self.cond()); self.exp("]")
                return ("idx", v, idx)
            return ("var", v)
        if v == "(":
            e = self.cond(); self.exp(")")
            return ("par", e)
        raise SyntaxError(f"unexpected {k} {v}")
def parse(s): return P(tokenize(s)).full()

def strip_comments(s):
    return re.sub(r"/\*.*?\*/", lambda m: "\n" * m.group(0).count("\n") if False else " ", s, flags=re.S)

class Model:
    def __init__(self, path, fn=None):
        raw = open(path, errors="replace").read()
        self.path = path
        self.rawlines = raw.split("\n")
        s = strip_comments(raw).replace("\\\n", " ")
        self.src = s
        self.macros, self.fmacros, self.consts, self.bad = {}, {}, {}, {}
        skip = 0
        for m in re.finditer(r"^#define\s+(\w+)(\([^)]*\))?[ \t]*(.*)$", s, re.M):
            n, a, b = m.group(1), m.group(2), m.group(3).strip()
            if not b: continue
            if a: self.fmacros[n] = ([x.strip() for x in a[1:-1].split(",")], b)
            else:
                if n in self.macros and self.macros[n] != b: self.bad.setdefault("redef", []).append(n)
                self.macros[n] = b
        for m in re.finditer(r"^static\s+(?:const\s+)?double\s+([^;()]*);", s, re.M):
            for d in m.group(1).split(","):
                mm = re.match(r"\s*(\w+)\s*=\s*(.+?)\s*$", d, re.S)
                if mm:
                    try: self.consts[mm.group(1)] = parse(mm.group(2))
                    except SyntaxError: pass
        self.ast = {}
        for n, b in self.macros.items():
            try: self.ast[n] = parse(b)
            except SyntaxError as e: self.bad[n] = str(e)
    def func(self, pat):
        m = re.search(r"^(?:void\s+|int\s+|static[^\n]*\s+)?(" + pat + r")\s*\([^;{]*?\)\s*\{", self.src, re.M)
        if not m: return None
        i = m.end(); d = 1
        while d:
            c = self.src[i]
            d += (c == "{") - (c == "}")
            i += 1
        return self.src[m.end():i-1]
    def locals(self, body):
        out = {}
        for m in re.finditer(r"^\s*double\s+(\w+)\s*=\s*([^;]+);", body, re.M):
            try: out[m.group(1)] = parse(m.group(2))
            except SyntaxError: pass
        return out
    def expand(self, toks, depth=0):
        """full textual expansion"""
        if depth > 60: raise RecursionError
        out, i = [], 0
        while i < len(toks):
            k, v = toks[i]
            if k == "id" and v in self.macros and v not in self.noexp:
                out += self.expand(tokenize(self.macros[v]), depth+1); i += 1
            elif k == "id" and v in self.fmacros and i+1 < len(toks) and toks[i+1] == ("op", "("):
                d, j, args, cur = 1, i+2, [], []
                while d:
                    if toks[j] == ("op", "("): d += 1
                    if toks[j] == ("op", ")"): d -= 1
                    if d == 1 and toks[j] == ("op", ","): args.append(cur); cur = []
                    elif d: cur.append(toks[j])
                    j += 1
                args.append(cur)
                ps, b = self.fmacros[v]
                body = []
                for t in tokenize(b):
                    if t[0] == "id" and t[1] in ps: body += args[ps.index(t[1])]
                    else: body.append(t)
                out += self.expand(body, depth+1); i = j
            else: out.append(toks[i]); i += 1
        return out
    noexp = {"DBL_EPSILON", "SQUARE", "CUBE", "QUARTIC"}
    def textual(self, name):
        return P(self.expand(tokenize(self.macros[name]))).full()

# ---- dual-number evaluation
class D:
    __slots__ = ("v", "d")
    def __init__(self, v, d=0.0): self.v, self.d = v, d
def lift(x): return x if isinstance(x, D) else D(float(x))
EPS = 2.0**-52
def ev(e, env, model=None, memo=None):
    k = e[0]
    f = lambda x: ev(x, env, model, memo)
    if k == "num": return D(float(e[1]))
    if k == "par": return f(e[1])
    if k == "neg": a = f(e[1]); return D(-a.v, -a.d)
    if k == "var":
        n = e[1]
        if n in env:
            x = env[n]
            if isinstance(x, tuple):
                r = f(x); env2 = env
                if memo is not None: env[n] = r
                return r
            return lift(x)
        if n == "DBL_EPSILON": return D(EPS)
        if model and n in model.ast: return f(model.ast[n])
        if model and n in model.consts: return f(model.consts[n])
        raise KeyError(n)
    if k == "idx":
        n = e[1] + "".join("[%d]" % int(f(i).v) for i in e[2])
        return lift(env[n])
    if k == "+": a, b = f(e[1]), f(e[2]); return D(a.v+b.v, a.d+b.d)
    if k == "-": a, b = f(e[1]), f(e[2]); return D(a.v-b.v, a.d-b.d)
    if k == "*": a, b = f(e[1]), f(e[2]); return D(a.v*b.v, a.d*b.v+a.v*b.d)
    if k == "/": a, b = f(e[1]), f(e[2]); return D(a.v/b.v, (a.d*b.v-a.v*b.d)/(b.v*b.v))
    if k == "if":
        c = e[1]
        while c[0] == "par": c = c[1]
        a, b = f(c[2]).v, f(c[3]).v
        t = {">": a > b, "<": a < b, ">=": a >= b, "<=": a <= b, "==": a == b, "!=": a != b}[c[1]]
        return f(e[2]) if t else f(e[3])
    if k == "call":
        n, a = e[1], [f(x) for x in e[2]]
        x = a[0]
        if n == "log": return D(math.log(x.v), x.d/x.v)
        if n == "LOG" : return D(math.log(x.v), x.d/x.v) if x.v > 0 else D(math.log(EPS), 0)
        if n == "exp": return D(math.exp(x.v), x.d*math.exp(x.v))
        if n == "sqrt": return D(math.sqrt(x.v), x.d/(2*math.sqrt(x.v)))
        if n == "SQUARE": return D(x.v**2, 2*x.v*x.d)
        if n == "CUBE": return D(x.v**3, 3*x.v**2*x.d)
        if n == "QUARTIC": return D(x.v**4, 4*x.v**3*x.d)
        if n == "fabs": return D(abs(x.v), x.d if x.v >= 0 else -x.d)
        if n == "pow":
            y = a[1]
            return D(x.v**y.v, y.v*x.v**(y.v-1)*x.d + (0 if y.d == 0 else math.log(x.v)*x.v**y.v*y.d))
        if n == "tanh": return D(math.tanh(x.v), x.d*(1-math.tanh(x.v)**2))
        if model and n in model.fmacros:
            ps, b = model.fmacros[n]
            sub = dict(env)
            for p, v in zip(ps, a): sub[p] = v
            return ev(parse(b), sub, model, memo)
        raise KeyError(n)
    raise KeyError(k)
