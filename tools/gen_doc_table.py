#!/usr/bin/env python3
"""Generate rocq/theories/DocTable.v from the Sequence Table of
/repo/docs/BasicText.md: the rows whose sequence is one scalar value or one
set of scalar values (rows matching longer sequences are specified by hand in
SpecEscape.v)."""
import re
rows=[]
skipped=[]
on=False
for line in open('/repo/docs/BasicText.md', encoding='utf-8'):
    if line.startswith('## Sequence Table'): on=True; continue
    if line.startswith('## Conversion'): break
    if not on or not line.startswith('| ') or line.startswith('| Sequence') or line.startswith('| ---'): continue
    cells=[c.strip() for c in line.strip().strip('|').split('|')]
    seq=cells[0].replace('\\','')
    repl=cells[2]
    m=re.fullmatch(r'\[([^\]]*)\]',seq)
    body=m.group(1) if m else seq
    if not re.fullmatch(r'U\+[0-9A-F]+([–,]U\+[0-9A-F]+)*',body) :
        skipped.append(seq); continue
    ranges=[]
    for part in body.split(','):
        ends=[int(x[2:],16) for x in part.split('–')]
        ranges.append((ends[0],ends[-1]))
    if 'Variant' in repl: r='Variant'
    else:
        r='Fixed ['+'; '.join('0x%X'%int(x[2:],16) for x in repl.split())+']'
    for a,b in ranges: rows.append((a,b,r))
print('(** Generated by tools/gen_doc_table.py from the Sequence Table of')
print('    /repo/docs/BasicText.md; rows with a single scalar value or set of scalar')
print('    values.  Specification, not model. *)')
print('From Coq Require Import NArith List.')
print('Import ListNotations.\nLocal Open Scope N_scope.\n')
print('Inductive doc_action := Fixed (r : list N) | Variant.\n')
print('(** first, last, replacement *)')
print('Definition doc_rows : list (N * N * doc_action) := [')
print(';\n'.join('  (0x%X, 0x%X, %s)'%x for x in rows))
print('].')
import sys
for s in skipped: print('skipped:',s,file=sys.stderr)
