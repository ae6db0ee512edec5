#!/usr/bin/env python3
"""Generates rocq/theories/Tables.v from /repo/includes/*.h (labels, types, formulas)."""
import re
def strip(t):
    return re.sub(r'/\*.*?\*/','',t,flags=re.S)
def pre(t,defs):
    out=[];st=[]
    for l in t.split('\n'):
        m=re.match(r'\s*#\s*(ifdef|ifndef|if|else|endif)\b\s*(\w*)',l)
        if m:
            k,a=m.groups()
            if k=='ifdef': st.append(a in defs)
            elif k=='ifndef': st.append(a not in defs)
            elif k=='if': st.append(True)
            elif k=='else': st[-1]=not st[-1]
            else: st.pop()
            out.append('');continue
        out.append(l if all(st) else '')
    return '\n'.join(out)
src=open('/repo/includes/sol_struct_data.h',errors='replace').read()
# keep line numbers: blank comments
def blank(m): return re.sub(r'[^\n]',' ',m.group(0))
src=re.sub(r'/\*.*?\*/',blank,src,flags=re.S)
t=pre(src,{'RHYOLITE_ADJUSTMENTS','BATCH_VERSION'})
out=['(** Generated by /verif/tools/gen_tables.py from includes/sol_struct_data.h with',
 '    RHYOLITE_ADJUSTMENTS defined (Makefile.common:696), and includes/liq_struct_data.h.',
 '    Each entry: label, [true] for type PHASE / [false] for COMPONENT, formula. *)',
 'From Coq Require Import String List Ascii.','Import ListNotations.','Local Open Scope string_scope.','']
for m in re.finditer(r'Solids\s+(\w+)\[\]\s*=\s*\{',t):
    name=m.group(1); i=m.end(); d=1
    while d:
        c=t[i]; d+=(c=='{')-(c=='}'); i+=1
    body=t[m.end():i]
    l0=t[:m.start()].count('\n')+1; l1=t[:i].count('\n')+1
    ent=re.findall(r'\{\s*"([^"]*)"\s*,\s*(PHASE|COMPONENT)\s*,\s*"([^"]*)"',body)
    out.append('(** includes/sol_struct_data.h:%d-%d *)'%(l0,l1))
    out.append('Definition tbl_%s : list (string * bool * string) := ['%name)
    out.append(';\n'.join('  ("%s", %s, "%s")'%(a,'true' if b=='PHASE' else 'false',c) for a,b,c in ent))
    out.append('].\n')
lq=open('/repo/includes/liq_struct_data.h',errors='replace').read()
m=re.search(r'BulkSystem bulkSystem\[\] = \{',lq)
e=lq.index('};',m.end())
labs=re.findall(r'\{ "([^"]*)"',lq[m.end():e])[:-1]
out.append('(** includes/liq_struct_data.h:174-196: bulkSystem[i].label for i < nc *)')
out.append('Definition tbl_bulk : list string := ['+'; '.join('"%s"'%l for l in labs)+'].\n')
for m in re.finditer(r'Liquid\s+(\w+)\[\]\s*=\s*\{',lq):
    i=m.end();d=1
    while d:
        c=lq[i]; d+=(c=='{')-(c=='}'); i+=1
    body=lq[m.end():i]
    names=re.findall(r'\{\s*"([^"]*)"\s*,\s*NULL',body)
    out.append('(** includes/liq_struct_data.h:%d-%d *)'%(lq[:m.start()].count('\n')+1,lq[:i].count('\n')+1))
    out.append('Definition tbl_%s : list string := ['%m.group(1)+'; '.join('"%s"'%l for l in names)+'].\n')
open('/verif/rocq/theories/Tables.v','w').write('\n'.join(out))
# element table
ms=open('/repo/sources/melts_support.c',errors='replace').read()
m=re.search(r'const ElementsData elements\[\] = \{',ms); e=ms.index('};',m.end())
ent=re.findall(r'\{\s*"([^"]*)"\s*,\s*"([^"]*)"\s*,\s*([\d.]+)\s*\}',ms[m.end():e])
o=['(** Generated by /verif/tools/gen_tables.py from sources/melts_support.c:%d-%d:'%(ms[:m.start()].count('\n')+1,ms[:e].count('\n')+1),
 '    elements[j] for j = 1 .. ne-1 (symbol, atomic weight); elements[0] is a dummy. *)',
 'From Coq Require Import String List QArith.','Import ListNotations.','Local Open Scope string_scope.','',
 'Definition tbl_elements : list (string * Q) := [']
rows=[]
for n,sy,w in ent[1:]:
    a,b=(w.split('.')+[''])[:2]
    rows.append('  ("%s", %d # %d)'%(sy,int(a+b),10**len(b)))
o.append(';\n'.join(rows)); o.append('].')
open('/verif/rocq/theories/ElemTable.v','w').write('\n'.join(o)+'\n')
