#!/usr/bin/env python3
"""Generate rocq/theories/DocErrors.v: the Error column of the Sequence Table of
/repo/docs/BasicText.md, for the rows whose sequence is one scalar value or one
set of scalar values."""
import re
rows=[]
on=False
for line in open('/repo/docs/BasicText.md', encoding='utf-8'):
    if line.startswith('## Sequence Table'): on=True; continue
    if line.startswith('## Conversion'): break
    if not on or not line.startswith('| ') or line.startswith('| Sequence') or line.startswith('| ---'): continue
    cells=[c.strip() for c in line.strip().strip('|').split('|')]
    seq=cells[0].replace('\\','')
    if seq in ('[U+C]+','[U+1B]+'): seq=seq[1:-2]
    m=re.fullmatch(r'\[([^\]]*)\]',seq)
    body=m.group(1) if m else seq
    if not re.fullmatch(r'U\+[0-9A-F]+([–,]U\+[0-9A-F]+)*',body): continue
    err=cells[3].strip('"')
    args=[]
    def arg(m):
        args.append('['+'; '.join('0x%X'%int(x[2:],16) for x in m.group(0).split())+']')
        return '_'
    text=re.sub(r'U\+[0-9A-F]+( U\+[0-9A-F]+)*',arg,err)
    r='Message "%s" [%s]'%(text,'; '.join(args))
    for part in body.split(','):
        ends=[int(x[2:],16) for x in part.split('–')]
        rows.append((ends[0],ends[-1],r))
print('''(** Generated by tools/gen_doc_errors.py from the Error column of the Sequence
    Table of /repo/docs/BasicText.md; rows with a single scalar value or set of
    scalar values.  Specification, not model. *)
From Coq Require Import NArith List String.
Import ListNotations.
Local Open Scope N_scope.

(** The text of a message with "_" for the scalar values it names, and these. *)
Inductive message := Message (text : string) (args : list (list N)).

Local Open Scope string_scope.
(** first, last, message *)
Definition doc_error_rows : list (N * N * message) := [''')
print(';\n'.join('  (0x%X, 0x%X, %s)'%x for x in rows))
print('].')
