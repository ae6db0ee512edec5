#!/usr/bin/env python3
"""Symbolic execution of the straight-line C of /repo/sources/<phase>.c.

The C text is macro-expanded with cpp (no compilation), the function bodies are
parsed, integers are executed concretely (so loops over NA, NR, NS unroll) and
doubles symbolically, as exact rational expressions.
"""
import re, subprocess, os, sys
from fractions import Fraction as F
sys.setrecursionlimit(20000)

MASKS = {n: 1 << i for i, n in enumerate("FIRST SECOND THIRD FOURTH FIFTH SIXTH SEVENTH EIGHTH NINTH TENTH".split())}
DEFS = ["-DBATCH_VERSION", "-DRHYOLITE_ADJUSTMENTS", "-DEASYMELTS_UPDATE_SYSTEM"] + [f"-D{k}={v}" for k, v in MASKS.items()] + \
       ["-DTRUE=1", "-DFALSE=0", "-DMAX(a,b)=((a)>(b)?(a):(b))", "-DMIN(a,b)=((a)<(b)?(a):(b))", "-DABS(x)=((x)<0?-(x):(x))"]

def preprocess(path, extra=()):
    src = open(path, errors="replace").read()
    src = re.sub(r"^\s*#\s*include.*$", "", src, flags=re.M)
    r = subprocess.run(["cpp", "-P", "-undef", "-w", "-traditional" if False else "-std=c99", *DEFS, *extra], input=src, capture_output=True, text=True)
    if r.returncode: raise SystemExit(r.stderr)
    return r.stdout

TOK = re.compile(r"""\s*(?:(?P<num>(?:\d+\.\d*|\.\d+|\d+)(?:[eE][-+]?\d+)?)|(?P<id>[A-Za-z_]\w*)|(?P<str>"(?:\\.|[^"\\])*")|(?P<chr>'(?:\\.|[^'\\])')|(?P<op>\+\+|--|\+=|-=|\*=|/=|->|<<|>>|==|!=|<=|>=|&&|\|\||[-+*/%()?:<>,\[\]&|!;=~{}.^]))""")
def toks(s):
    out, i = [], 0
    s = s.rstrip()
    while i < len(s):
        m = TOK.match(s, i)
        if not m: raise SyntaxError("tok: " + repr(s[i:i+40]))
        i = m.end()
        k = m.lastgroup
        out.append((k, m.group(k)))
    return out

TYPES = {"double", "int", "static", "const", "float", "char", "long", "size_t", "gsl_vector_view", "gsl_matrix_view", "gsl_matrix", "gsl_permutation", "gsl_vector", "SpeciesType"}
class Parser:
    def __init__(self, t): self.t, self.i = t, 0
    def pk(self, o=0): return self.t[self.i+o] if self.i+o < len(self.t) else ("end", "")
    def acc(self, v):
        if self.pk()[1] == v and self.pk()[0] in ("op", "id"): self.i += 1; return True
        return False
    def exp(self, v):
        if not self.acc(v): raise SyntaxError(f"expected {v}, got {self.t[self.i:self.i+8]}")
    def block(self):
        out = []
        while self.pk()[0] != "end" and self.pk()[1] != "}": out.append(self.stmt())
        return out
    def stmt(self):
        k, v = self.pk()
        if v == "{" : self.i += 1; b = self.block(); self.exp("}"); return ("block", b)
        if v == ";": self.i += 1; return ("block", [])
        if k == "id":
            if v == "if":
                self.i += 1; self.exp("("); c = self.comma(); self.exp(")"); a = self.stmt(); b = None
                if self.acc("else"): b = self.stmt()
                return ("if", c, a, b)
            if v == "for":
                self.i += 1; self.exp("(")
                a = None if self.pk()[1] == ";" else self.comma(); self.exp(";")
                c = None if self.pk()[1] == ";" else self.comma(); self.exp(";")
                s = None if self.pk()[1] == ")" else self.comma(); self.exp(")")
                return ("for", a, c, s, self.stmt())
            if v == "while":
                self.i += 1; self.exp("("); c = self.comma(); self.exp(")"); return ("while", c, self.stmt())
            if v == "do":
                self.i += 1; b = self.stmt(); self.exp("while"); self.exp("("); c = self.comma(); self.exp(")"); self.exp(";"); return ("dowhile", b, c)
            if v == "return":
                self.i += 1
                e = None if self.pk()[1] == ";" else self.comma()
                self.exp(";"); return ("return", e)
            if v in ("break", "continue"): self.i += 1; self.exp(";"); return (v,)
            if v in TYPES: return self.decl()
        e = self.comma(); self.exp(";"); return ("expr", e)
    def decl(self):
        ty = []
        while self.pk()[0] == "id" and self.pk()[1] in TYPES: ty.append(self.pk()[1]); self.i += 1
        out = []
        while True:
            stars = 0
            while self.acc("*"): stars += 1
            while self.acc("const"): pass
            n = self.pk()[1]; self.i += 1
            dims = []
            while self.acc("["):
                dims.append(None if self.pk()[1] == "]" else self.assign()); self.exp("]")
            init = None
            if self.acc("="): init = self.init()
            out.append((n, dims, init, stars))
            if not self.acc(","): break
        self.exp(";")
        return ("decl", ty, out)
    def init(self):
        if self.acc("{"):
            l = []
            while not self.acc("}"):
                l.append(self.init()); self.acc(",")
            return ("list", l)
        return self.assign()
    def comma(self):
        e = self.assign(); l = [e]
        while self.acc(","): l.append(self.assign())
        return l[0] if len(l) == 1 else ("comma", l)
    def assign(self):
        a = self.cond()
        if self.pk()[1] in ("=", "+=", "-=", "*=", "/=") and self.pk()[0] == "op":
            o = self.pk()[1]; self.i += 1
            return ("assign", o, a, self.assign())
        return a
    def cond(self):
        c = self.bin(0)
        if self.acc("?"):
            a = self.comma(); self.exp(":"); b = self.cond(); return ("cond", c, a, b)
        return c
    LV = [["||"], ["&&"], ["|"], ["^"], ["&"], ["==", "!="], ["<", ">", "<=", ">="], ["<<", ">>"], ["+", "-"], ["*", "/", "%"]]
    def bin(self, l):
        if l == len(self.LV): return self.un()
        a = self.bin(l+1)
        while self.pk()[0] == "op" and self.pk()[1] in self.LV[l]:
            o = self.pk()[1]; self.i += 1; a = ("bin", o, a, self.bin(l+1))
        return a
    def un(self):
        k, v = self.pk()
        if k == "op" and v in ("-", "+", "!", "~", "*", "&", "++", "--"):
            self.i += 1; return ("un", v, self.un())
        if v == "(" and self.pk(1)[0] == "id" and self.pk(1)[1] in TYPES:
            self.i += 1
            ty = []
            while not self.acc(")"): ty.append(self.pk()[1]); self.i += 1
            return ("cast", ty, self.un())
        return self.post()
    def post(self):
        k, v = self.pk(); self.i += 1
        if k == "num": e = ("num", v)
        elif k == "id": e = ("id", v)
        elif k in ("str", "chr"): e = ("str", v)
        elif v == "(": e = self.comma(); self.exp(")")
        else: raise SyntaxError(f"unexpected {v} at {self.t[self.i-3:self.i+5]}")
        while True:
            if self.acc("["): x = self.comma(); self.exp("]"); e = ("idx", e, x)
            elif self.acc("("):
                a = []
                while not self.acc(")"): a.append(self.assign()); self.acc(",")
                e = ("call", e, a)
            elif self.acc("++"): e = ("post", "++", e)
            elif self.acc("--"): e = ("post", "--", e)
            elif self.acc("."): e = ("mem", e, self.pk()[1]); self.i += 1
            elif self.acc("->"): e = ("mem", e, self.pk()[1]); self.i += 1
            else: return e

class Unit:
    """one source file"""
    def __init__(self, path, extra=()):
        self.path = path
        self.src = preprocess(path, extra)
        self.raw = open(path, errors="replace").read().split("\n")
        self.globals = {}
        for m in re.finditer(r"^\s*static\s+(?:const\s+)?double\s+([^;(){}]*);", self.src, re.M):
            for d in m.group(1).split(","):
                mm = re.match(r"\s*(\w+)\s*=\s*(.+?)\s*$", d, re.S)
                if mm: self.globals[mm.group(1)] = mm.group(2)
    def func(self, name):
        m = re.search(r"\b" + name + r"\s*\(([^;{}]*)\)\s*\{", self.src)
        if not m: raise KeyError(name)
        i, d = m.end(), 1
        while d: d += (self.src[i] == "{") - (self.src[i] == "}"); i += 1
        return m.group(1), Parser(toks(self.src[m.end():i-1])).block()
    def lines(self, name):
        """line range of a function in the original file"""
        for n, l in enumerate(self.raw):
            if re.match(r"(?:(?:static\s+)?(?:void|int|double)\s+)?" + name + r"\s*\(", l):
                d = 0; started = False
                for k in range(n, len(self.raw)):
                    t = re.sub(r'"(?:\\.|[^"\\])*"|/\*.*?\*/', "", self.raw[k])
                    d += t.count("{") - t.count("}")
                    if "{" in t: started = True
                    if started and d <= 0: return n+1, k+1
        return None
    def macro_line(self, name):
        for n, l in enumerate(self.raw):
            if re.match(r"#define\s+" + name + r"\b", l): return n+1
        return None

# ---- symbolic doubles: tuples
def num(q): return ("n", F(q))
def isn(x): return x[0] == "n"
ZERO, ONE = num(0), num(1)
EPS = num(F(1, 2**52))
def add(a, b):
    if isn(a) and isn(b): return num(a[1]+b[1])
    if a == ZERO: return b
    if b == ZERO: return a
    return ("+", a, b)
def sub(a, b):
    if isn(a) and isn(b): return num(a[1]-b[1])
    if b == ZERO: return a
    if a == ZERO: return neg(b)
    return ("-", a, b)
def mul(a, b):
    if isn(a) and isn(b): return num(a[1]*b[1])
    if a == ZERO or b == ZERO: return ZERO
    if a == ONE: return b
    if b == ONE: return a
    return ("*", a, b)
def div(a, b):
    if isn(a) and isn(b) and b[1] != 0: return num(a[1]/b[1])
    if a == ZERO: return ZERO
    if b == ONE: return a
    return ("/", a, b)
def neg(a):
    if isn(a): return num(-a[1])
    return ("neg", a)

class Unsupported(Exception): pass
class Brk(Exception): pass
class Cont(Exception): pass
class Ret(Exception): pass

class Exec:
    """env: scalars name -> ('i', int) or ('d', expr); arrays: name -> {idx tuple: value}"""
    def __init__(self, unit, env, hooks=None):
        self.u, self.env, self.hooks = unit, dict(env), hooks or {}
        self.arr = {}
        self.fuel = 200000
        self.assume = self.hooks.get("assume", lambda c: None)
    def lookup(self, n):
        if n in self.env: return self.env[n]
        if n == "DBL_EPSILON": return ("d", EPS)
        if n in self.u.globals:
            v = self.ev(Parser(toks(self.u.globals[n])).comma())
            self.env[n] = self.tod(v); return self.env[n]
        raise Unsupported("name " + n)
    def tod(self, v): return v if v[0] == "d" else ("d", num(v[1]))
    def idx(self, e):
        ix = []
        while e[0] == "idx": ix.insert(0, self.int(e[2])); e = e[1]
        if e[0] == "un" and e[1] == "*": 
            return self.idx(e[2])[0], (0,)
        if e[0] != "id": raise Unsupported("lvalue %r" % (e,))
        n = e[1]
        # pointer aliases
        while n in self.env and self.env[n][0] == "alias": n = self.env[n][1]
        return n, tuple(ix)
    def int(self, e):
        v = self.ev(e)
        if v[0] != "i": raise Unsupported("int expected %r" % (e,))
        return v[1]
    def load(self, n, ix):
        if n in self.arr and ix in self.arr[n]: return self.arr[n][ix]
        h = self.hooks.get("load")
        if h:
            v = h(n, ix)
            if v is not None: return v
        raise Unsupported(f"read {n}{ix}")
    def truth(self, v, what=None):
        if v[0] == "i": return v[1] != 0
        if v[0] == "b":
            r = self.assume(v[1])
            if r is not None: return r
            raise Unsupported("branch on %r" % (v[1],))
        raise Unsupported("truth %r" % (v,))
    def ev(self, e):
        k = e[0]
        if k == "num":
            s = e[1]
            if re.fullmatch(r"\d+", s): return ("i", int(s, 8) if len(s) > 1 and s[0] == "0" else int(s))
            return ("d", num(F(s)))
        if k == "id":
            return self.lookup(e[1])
        if k == "idx":
            n, ix = self.idx(e); return self.load(n, ix)
        if k == "cast":
            return self.ev(e[2])
        if k == "comma":
            for x in e[1]: v = self.ev(x)
            return v
        if k == "un":
            o = e[1]
            if o == "*":
                n, ix = self.idx(e); return self.load(n, ix)
            if o in ("++", "--"): return self.ev(("assign", "+=" if o == "++" else "-=", e[2], ("num", "1")))
            v = self.ev(e[2])
            if o == "-": return ("i", -v[1]) if v[0] == "i" else ("d", neg(v[1]))
            if o == "+": return v
            if o == "!":
                return ("i", int(not self.truth(v)))
            if o == "~": return ("i", ~v[1])
            raise Unsupported("unary " + o)
        if k == "post":
            v = self.ev(e[2]); self.ev(("assign", "+=" if e[1] == "++" else "-=", e[2], ("num", "1"))); return v
        if k == "bin":
            o = e[1]
            if o == "&&":
                a = self.ev(e[2])
                return ("i", int(self.truth(a) and self.truth(self.ev(e[3]))))
            if o == "||":
                a = self.ev(e[2])
                return ("i", int(self.truth(a) or self.truth(self.ev(e[3]))))
            a, b = self.ev(e[2]), self.ev(e[3])
            if a[0] == "i" and b[0] == "i":
                x, y = a[1], b[1]
                if o == "/":
                    q = abs(x) // abs(y); return ("i", q if (x >= 0) == (y >= 0) else -q)
                r = {"+": lambda: x+y, "-": lambda: x-y, "*": lambda: x*y, "%": lambda: x % y, "&": lambda: x & y, "|": lambda: x | y, "<<": lambda: x << y,
                     "==": lambda: int(x == y), "!=": lambda: int(x != y), "<": lambda: int(x < y), ">": lambda: int(x > y), "<=": lambda: int(x <= y), ">=": lambda: int(x >= y)}[o]()
                return ("i", r)
            if a[0] == "ptr" or b[0] == "ptr":
                return ("i", int({"==": a == b, "!=": a != b}[o]))
            x, y = self.tod(a)[1], self.tod(b)[1]
            if o in "+-*/": return ("d", {"+": add, "-": sub, "*": mul, "/": div}[o](x, y))
            if o in ("==", "!=", "<", ">", "<=", ">="):
                if isn(x) and isn(y):
                    p, q = x[1], y[1]
                    return ("i", int({"==": p == q, "!=": p != q, "<": p < q, ">": p > q, "<=": p <= q, ">=": p >= q}[o]))
                return ("b", (o, x, y))
            raise Unsupported("bin " + o)
        if k == "cond":
            c = self.ev(e[1])
            if c[0] == "b":
                r = self.assume(c[1])
                if r is not None: return self.ev(e[2] if r else e[3])
                a, b = self.tod(self.ev(e[2])), self.tod(self.ev(e[3]))
                return ("d", self.ite(c[1], a[1], b[1]))
            return self.ev(e[2] if self.truth(c) else e[3])
        if k == "assign":
            o, lv, rv = e[1], e[2], self.ev(e[3])
            if o != "=":
                old = self.ev(lv)
                if old[0] == "i" and rv[0] == "i":
                    rv = ("i", {"+=": old[1]+rv[1], "-=": old[1]-rv[1], "*=": old[1]*rv[1]}[o])
                else:
                    rv = ("d", {"+=": add, "-=": sub, "*=": mul, "/=": div}[o](self.tod(old)[1], self.tod(rv)[1]))
            if lv[0] == "id" and lv[1] not in self.arr:
                old = self.env.get(lv[1])
                if old is not None and old[0] == "d": rv = self.tod(rv)
                self.env[lv[1]] = rv
                h = self.hooks.get("assigned")
                if h and rv[0] == "d":
                    r = h(lv[1], rv[1])
                    if r is not None: self.env[lv[1]] = rv = ("d", r)
            else:
                n, ix = self.idx(lv)
                rv = self.tod(rv)
                self.arr.setdefault(n, {})[ix] = rv
            return rv
        if k == "call":
            n = e[1][1]
            if n in self.hooks.get("call", {}):
                return self.hooks["call"][n](self, e[2])
            if n in ("log", "exp", "sqrt", "fabs", "pow", "tanh"):
                a = [self.tod(self.ev(x))[1] for x in e[2]]
                if n == "pow":
                    if isn(a[1]) and a[1][1].denominator == 1 and a[1][1] > 0:
                        r = a[0]
                        for _ in range(int(a[1][1])-1): r = mul(r, a[0])
                        return ("d", r)
                if n == "sqrt" and a[0] == EPS: return ("d", num(F(1, 2**26)))
                return ("d", self.hooks.get("math", lambda n, a: (n,) + tuple(a))(n, a))
            if n == "printf" or n == "fprintf": return ("i", 0)
            raise Unsupported("call " + n)
        if k == "str": return ("ptr", e[1])
        raise Unsupported("expr " + k)
    def ite(self, c, a, b):
        h = self.hooks.get("ite")
        if h:
            r = h(c, a, b)
            if r is not None: return r
        raise Unsupported("ite %r" % (c,))
    def run(self, block):
        for s in block: self.st(s)
    def st(self, s):
        self.fuel -= 1
        if self.fuel < 0: raise Unsupported("fuel")
        k = s[0]
        if k == "block": self.run(s[1])
        elif k == "expr": self.ev(s[1])
        elif k == "if":
            h = self.hooks.get("if")
            if h and h(self, s): return
            if self.truth(self.ev(s[1])): self.st(s[2])
            elif s[3] is not None: self.st(s[3])
        elif k == "for":
            if s[1] is not None: self.ev(s[1])
            while s[2] is None or self.truth(self.ev(s[2])):
                self.fuel -= 1
                if self.fuel < 0: raise Unsupported("fuel")
                try: self.st(s[4])
                except Brk: break
                except Cont: pass
                if s[3] is not None: self.ev(s[3])
        elif k == "decl":
            for n, dims, init, stars in s[2]:
                isint = "int" in s[1]
                if dims:
                    self.arr[n] = {}
                    self.env.pop(n, None)
                    if init is not None and init[0] == "list":
                        def fill(ix, l):
                            for i, x in enumerate(l):
                                if x[0] == "list": fill(ix + (i,), x[1])
                                else: 
                                    v = self.ev(x); self.arr[n][ix + (i,)] = v if isint else self.tod(v) if v[0] != "ptr" else v
                        fill((), init[1])
                elif stars:
                    self.arr.pop(n, None)
                    if init is not None and init[0] == "id": self.env[n] = ("alias", init[1])
                    else: self.env[n] = ("ptr", n)
                else:
                    self.arr.pop(n, None)
                    if init is None: self.env[n] = ("undef",)
                    else:
                        v = self.ev(init); self.env[n] = v if isint else self.tod(v)
                    h = self.hooks.get("assigned")
                    if h and self.env[n][0] == "d":
                        r = h(n, self.env[n][1])
                        if r is not None: self.env[n] = ("d", r)
        elif k == "return": raise Ret()
        elif k == "break": raise Brk()
        elif k == "continue": raise Cont()
        else: raise Unsupported("stmt " + k)
