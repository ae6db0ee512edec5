#!/usr/bin/env python3
"""Apply one wrong-program edit to a scratch copy of the Rocq model, rebuild, and
log which lemmas/theorems no longer go through.

usage: mutate.py BATCH.json     (list of {file, definition, old, new, edit, claim})
Appends to seeded/LOG.jsonl."""
import json, os, re, shutil, subprocess, sys
ROOT = os.path.dirname(os.path.dirname(os.path.abspath(__file__)))
SCR = "/tmp/mut/rocq"

def enclosing(path, line):
    name = None
    for n, l in enumerate(open(path), 1):
        if n > line: break
        m = re.match(r"\s*(?:Local |Global |#\[.*\] )?(?:Theorem|Lemma|Example|Corollary|Definition|Fixpoint|Instance|Let)\s+([\w']+)", l)
        if m: name = m.group(1)
    return name

KW = r"(?:Theorem|Lemma|Example|Corollary|Remark|Fact)"
def theorems(path):
    return re.findall(r"^Theorem ([\w']+)", open(path).read(), re.M)

def admit(path, name):
    """replace the proof of [name] by Admitted"""
    s = open(path).read()
    m = re.search(KW + r"\s+" + re.escape(name) + r"(?![\w'])", s)
    if not m: return False
    q = re.search(r"\bProof\b[^.]*\.", s[m.start():])
    if not q: return False
    st = m.start() + q.end()
    e = re.search(r"\b(Qed|Defined)\.", s[st:])
    if not e: return False
    s = s[:st] + " Admitted. (* broken *)" + s[st + e.end():]
    open(path, "w").write(s)
    return True

def run(m):
    if os.path.exists(SCR): shutil.rmtree(SCR)
    subprocess.run(["cp", "-a", ROOT + "/rocq", SCR], check=True)
    p = f"{SCR}/theories/{m['file']}"
    s = open(p).read()
    if s.count(m["old"]) < 1: return {"error": "pattern not found"}
    if s.count(m["old"]) > 1 and not m.get("nth") and not m.get("all"): return {"error": f"pattern occurs {s.count(m['old'])} times"}
    if m.get("all"): s = s.replace(m["old"], m["new"])
    else:
        k = -1
        for _ in range(m.get("nth", 1)): k = s.index(m["old"], k + 1)
        s = s[:k] + m["new"] + s[k+len(m["old"]):]
    open(p, "w").write(s)
    subprocess.run("coq_makefile -f _CoqProject -o Makefile >/dev/null", shell=True, cwd=SCR)
    broken, stuck = [], []
    for it in range(40):
        r = subprocess.run("timeout 1500 make -k -j2 2>&1", shell=True, cwd=SCR, capture_output=True, text=True)
        errs = []
        for mm in re.finditer(r'File "\./theories/(\w+)\.v", line (\d+), characters [\d-]+:\s*\n(\w+)', r.stdout):
            if mm.group(3) != "Error": continue
            e = (mm.group(1), enclosing(f"{SCR}/theories/{mm.group(1)}.v", int(mm.group(2))))
            if e not in errs: errs.append(e)
        if r.returncode == 0: break
        progress = False
        for f, n in errs:
            if n and admit(f"{SCR}/theories/{f}.v", n):
                progress = True; broken.append(f"{f}.{n}")
            else: stuck.append(f"{f}.{n}")
        if not progress: break
    files = [l.strip()[9:-2] for l in open(SCR + "/_CoqProject") if l.strip().endswith(".v")]
    lost = []
    for b in files:
        path = f"{SCR}/theories/{b}.v"
        th = theorems(path)
        if not th: continue
        if not os.path.exists(path + "o") or os.path.getmtime(path + "o") < os.path.getmtime(p) and subprocess.run(f"make -q theories/{b}.vo", shell=True, cwd=SCR, capture_output=True).returncode != 0:
            lost += th; continue
        if broken and os.path.getmtime(path + "o") >= os.path.getmtime(p):
            q = f"From Verif Require {b}.\n" + "".join(f'Eval compute in (4001%nat). Print Assumptions {b}.{t}.\n' for t in th)
            open("/tmp/mut/q.v", "w").write(q)
            o = subprocess.run("coqc -R theories Verif /tmp/mut/q.v", shell=True, cwd=SCR, capture_output=True, text=True).stdout
            parts = o.split("= 4001")[1:]
            names = {x.split(".")[1] for x in broken}
            for t, part in zip(th, parts):
                if t in names: lost.append(t); continue
                ax = re.findall(r"^([\w.']+)\s*:", part, re.M)
                if any(a.split(".")[-1] in names for a in ax): lost.append(t)
    return {"failed_at": broken + stuck, "rc": r.returncode, "lost": lost}

if __name__ == "__main__":
    for m in json.load(open(sys.argv[1])):
        res = run(m)
        print(m["definition"], "|", m["edit"], "->", json.dumps(res))
        sys.stdout.flush()
        if "error" in res: continue
        rec = {"definition": f"{m['file'][:-2]}.{m['definition']}", "edit": m["edit"], "claim": m["claim"],
               "failed_at": res["failed_at"], "theorems_failed": res["lost"], "tightened": m.get("tightened", [])}
        if not res["failed_at"]: rec["note"] = "SURVIVED" + (": " + m["note"] if m.get("note") else "")
        open(ROOT + "/seeded/LOG.jsonl", "a").write(json.dumps(rec) + "\n")
