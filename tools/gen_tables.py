#!/usr/bin/env python3
"""Generate rocq/theories/Tables.v from the constant tables in /repo (textual copy of the literals)."""
import re, sys
R="/repo/src/"
def grab(fn, pat):
    src=open(R+fn).read()
    m=re.search(pat, src); assert m, pat
    i=src.index("{", m.end()); start=src.count("\n",0,m.start())+1
    d=0; j=i
    while True:
        if src[j]=="{": d+=1
        if src[j]=="}":
            d-=1
            if d==0: break
        j+=1
    end=src.count("\n",0,j)+1
    return src[i:j+1], start, end
def lits(t): return re.findall(r"0x([0-9a-fA-F]+)(?:ULL)?", t)
def flat(name, fn, pat, n, per, cite):
    t,a,b=grab(fn,pat); L=lits(t); assert len(L)==n,(name,len(L))
    out=[f"(* {fn}:{a}-{b} {cite} *)", f"Definition {name} : list N :=", "  ["]
    rows=[";".join(" 0x"+x for x in L[i:i+per]) for i in range(0,n,per)]
    out.append(";\n".join("   "+r for r in rows)); out.append("  ]%N.\n")
    return "\n".join(out)
def nested(name, fn, pat, n, m, per, cite):
    t,a,b=grab(fn,pat); L=lits(t); assert len(L)==n*m,(name,len(L))
    out=[f"(* {fn}:{a}-{b} {cite} *)", f"Definition {name} : list (list N) :=", "  ["]
    subs=[]
    for k in range(n):
        S=L[k*m:(k+1)*m]
        rows=[";".join(" 0x"+x for x in S[i:i+per]) for i in range(0,m,per)]
        subs.append("  [\n"+";\n".join("   "+r for r in rows)+"\n  ]%N")
    out.append(";\n".join(subs)); out.append("  ].\n")
    return "\n".join(out)
o=["(* GENERATED by tools/gen_tables.py: literal copies of the constant tables of /repo/src. *)",
   "From Coq Require Import List NArith.","Import ListNotations.","Local Open Scope N_scope.\n"]
o.append(flat("csa_block_perm","dvbcsa_block.c",r"static const uint8_t\s+csa_block_perm\[256\] =",256,16,"csa_block_perm[256]"))
o.append(flat("dvbcsa_block_sbox","dvbcsa_block.c",r"const uint8_t\s+dvbcsa_block_sbox\[256\] =",256,16,"dvbcsa_block_sbox[256]"))
o.append(nested("kperm","dvbcsa_key.c",r"static const uint64_t kperm\[8\]\[256\] =",8,256,4,"kperm[8][256]"))
o.append(nested("csa_stream_sbox","dvbcsa_stream.c",r"static const uint16_t sbox\[7\]\[32\] =",7,32,16,"sbox[7][32] (local to csa_stream_sboxes)"))
o.append(flat("csa_stream_cdef","dvbcsa_stream.c",r"static const uint16_t csa_stream_cdef\[0x400\] =",1024,16,"csa_stream_cdef[0x400]"))
o.append(flat("csa_stream_out","dvbcsa_stream.c",r"static const uint8_t csa_stream_out\[16\] =",16,16,"csa_stream_out[16]"))
o.append(flat("dvbcsa_block_sbox_perm","dvbcsa_bs_block.c",r"static const uint16_t dvbcsa_block_sbox_perm\[256\] =",256,8,"dvbcsa_block_sbox_perm[256]"))
open("/verif/rocq/theories/Tables.v","w").write("\n".join(o))
