#!/usr/bin/env python3
"""Write ASSUMPTIONS.md: what Print Assumptions lists for every theorem named in MANIFEST.json.
Needs the compiled theories in rocq/theories."""
import json, re, subprocess, collections, os, sys
root = os.path.dirname(os.path.dirname(os.path.abspath(__file__)))
th = os.path.join(root, 'rocq', 'theories')
where = {}
for line in open(os.path.join(root, 'rocq', '_CoqProject')):
    line = line.strip()
    if not line.startswith('theories/'): continue
    mod = os.path.basename(line)[:-2]
    for m in re.finditer(r'^\s*(?:Theorem|Lemma|Corollary|Example|Definition)\s+([A-Za-z0-9_\']+)', open(os.path.join(root, 'rocq', line)).read(), re.M):
        where.setdefault(m.group(1), mod)
man = json.load(open(os.path.join(root, 'MANIFEST.json')))
bymod = collections.OrderedDict()
for c in man['claims']:
    for t in c['theorems']:
        bymod.setdefault(where[t], []).append((c['property'], t))
res = {}
for mod, ts in bymod.items():
    src = 'Require Verif.%s.\n' % mod
    for _, t in ts:
        src += 'Goal True. idtac "@@ %s". exact I. Qed.\nPrint Assumptions Verif.%s.%s.\n' % (t, mod, t)
    open('/tmp/asm.v', 'w').write(src)
    out = subprocess.run(['coqc', '-Q', th, 'Verif', '/tmp/asm.v'], capture_output=True, text=True)
    if out.returncode: print(out.stderr); sys.exit(1)
    for part in out.stdout.split('@@ ')[1:]:
        name, body = part.split('\n', 1)
        if 'Closed under' in body: res[name] = ()
        else:
            res[name] = tuple(sorted(set(re.findall(r'^([A-Za-z_][\w\.\']*)\s*$|^([A-Za-z_][\w\.\']*) ?:', body, re.M)) ))
            res[name] = tuple(sorted({a or b for a, b in res[name]} - {'Axioms'}))
groups = collections.OrderedDict()
for mod, ts in bymod.items():
    for p, t in ts: groups.setdefault(res[t], []).append((p, t, mod))
with open(os.path.join(root, 'ASSUMPTIONS.md'), 'w') as f:
    f.write('# What Print Assumptions lists, theorem by theorem\n\nGenerated by tools/assumptions.py from the compiled theories.\n')
    for ax, l in sorted(groups.items(), key=lambda x: len(x[0])):
        f.write('\n## ' + ('Closed under the global context (no axioms)' if not ax else ', '.join('`%s`' % a for a in ax)) + '\n\n')
        f.write(', '.join(sorted({'%s.%s' % (m, t) for p, t, m in l})) + '\n')
