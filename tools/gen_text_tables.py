#!/usr/bin/env python3
"""Generates rocq/theories/TextTables.v from the matches! tables in
/repo/internals/src/text_utils.rs."""
import re
src=open('/repo/internals/src/text_utils.rs').read().split('\n')
def table(fn, start_pat, excl=False):
    # find the fn, then the matches!( ... ) block
    i=next(k for k,l in enumerate(src) if re.search(r'fn '+fn+r'\(',l))
    j=i
    while not re.search(start_pat,src[j]): j+=1
    k=j; depth=0; txt=''
    while True:
        l=re.sub(r'//.*','',src[k]); txt+=l+'\n'
        depth+=l.count('(')-l.count(')')
        if depth<=0 and k>=j and 'matches!' in txt: break
        k+=1
    rs=[]
    for m in re.finditer(r"'\\u\{([0-9a-f]+)\}'(?:\s*\.\.=\s*'\\u\{([0-9a-f]+)\}')?",txt[txt.index('matches!'):]):
        lo=int(m.group(1),16); hi=int(m.group(2),16) if m.group(2) else lo
        rs.append((lo,hi))
    return rs,i+1,k+1
out=["(** Generated by tools/gen_text_tables.py - do not edit.",
"    The range tables of /repo/internals/src/text_utils.rs, verbatim. *)",
"From Coq Require Import NArith List.","Import ListNotations.","Local Open Scope N_scope.",""]
def emit(name,fn,pat,doc):
    rs,a,b=table(fn,pat)
    out.append(f"(** /repo/internals/src/text_utils.rs:{a}-{b} {fn}{doc} *)")
    out.append(f"Definition {name} : list (N * N) := [")
    rows=[f"(0x{lo:X},0x{hi:X})" for lo,hi in rs]
    out.append(";\n".join("; ".join(rows[i:i+6]) for i in range(0,len(rows),6)))
    out.append("].\n")
    print(name,len(rs),a,b)
emit("tbl_grapheme_extend_not_cgj","is_grapheme_extend_not_cgj","matches!","")
emit("tbl_emoji_modifier","is_emoji_modifier","matches!","")
emit("tbl_spacing_mark_exceptions","is_grapheme_cluster_break_spacing_mark_plus","matches!",": the excluded ranges")
emit("tbl_gc_spacing_mark","is_general_category_spacing_mark","matches!","")
emit("tbl_preceding_repha","indic_syllabic_category_consonant_preceding_repha","matches!","")
emit("tbl_consonant_prefixed","indic_syllabic_category_consonant_prefixed","matches!","")
emit("tbl_prepended_concatenation_mark","prepended_concatenation_mark","matches!","")
emit("tbl_private_use","is_private_use_area","matches!","")
open('/verif/rocq/theories/TextTables.v','w').write("\n".join(out))
