#!/usr/bin/env python3
"""Parse the bitslice sources of /repo/src (or of the directory given as argv[1]) and print the syntax
trees of their functions as Coq terms of BsC.v, for every build configuration: each function is
preprocessed and parsed under every combination of word type, byte order, --enable-alt-sbox, __i386__
and assertions; where the trees differ, the Coq definition chooses by the fields of [build].
Macros defined in the header of a word type (dvbcsa_bs_uint64.h, ...) are not expanded: they stay calls
of BS_AND and so on, whose meaning BsC.v takes from ModelBsWord.v; BS_BATCH_SIZE and BS_BATCH_BYTES
stay symbolic in the text (their values count in #if)."""
import sys, re, itertools, os
sys.path.insert(0,os.path.dirname(os.path.abspath(__file__)))
import gen_source as G
from gen_source import Err, tokenize, strip_comments
WORD_HEADERS={f"dvbcsa_bs_{t}.h" for t in ("uint32","uint64","mmx","sse","avx2","neon","altivec")}
USE={"UINT32":"DVBCSA_USE_UINT32","UINT64":"DVBCSA_USE_UINT64","MMX":"DVBCSA_USE_MMX","SSE2":"DVBCSA_USE_SSE","SSSE3":"DVBCSA_USE_SSSE3","AVX2":"DVBCSA_USE_AVX2","NEON":"DVBCSA_USE_NEON"}
TARGETS=list(USE)
class PP(G.PP):
    def __init__(self,root,defines):
        super().__init__(root,defines); self.opaque=set(); self.cur=[]; self.text=True
    def cond(self,text):
        self.text=False
        try: return super().cond(text)
        finally: self.text=True
    def file(self,name):
        self.cur.append(name)
        before=dict(self.m)
        out=super().file(name)
        self.cur.pop()
        if name in WORD_HEADERS:
            for k,v in self.m.items():
                if before.get(k)!=v: self.opaque.add((k,id(v)))
            return []
        return out
    def is_opaque(self,k): return (k,id(self.m[k])) in self.opaque
    def expand(self,toks,hide=frozenset()):
        # variadic macros  X(op...) , and opaque ones
        if self.cur and self.cur[-1] in WORD_HEADERS and self.text: return toks
        if self.text:
            hide=hide|{k for k in {t[1] for t in toks if t[0]=='id'} if k in self.m and self.is_opaque(k)}
        out=[]; i=0; pre=[]
        while i<len(toks):
            t=toks[i]
            if t[0]=='id' and t[1] in self.m and t[1] not in hide and self.m[t[1]][0] and self.m[t[1]][0][-1].endswith('...') and i+1<len(toks) and toks[i+1]==('op','('):
                d=0; j=i+1
                while True:
                    if toks[j]==('op','('): d+=1
                    if toks[j]==('op',')'): d-=1
                    if d==0: break
                    j+=1
                arg=toks[i+2:j]; params,body=self.m[t[1]]; assert len(params)==1
                nm=params[0][:-3].strip(); sub=[]
                for b in body: sub.extend(arg if b==('id',nm) else [b])
                pre.extend(self.expand(sub,hide|{t[1]})); i=j+1; continue
            pre.append(t); i+=1
        return super().expand(pre,hide)
SYM={"BS_BATCH_SIZE":"(N.of_nat (batch_size c))","BS_BATCH_BYTES":"(N.of_nat (word_bytes c))"}
W2={"BS_AND":"WAnd","BS_OR":"WOr","BS_XOR":"WXor"}
class P(G.P):
    def __init__(self,toks):
        super().__init__(toks); self.typedefs={"dvbcsa_bs_word_t":('word',)}; self.unions=set()
    def base(self):
        # union { ... }
        k=self.i
        while self.peek()[0]=='id' and self.peek()[1] in G.QUAL and self.peek()[1]!='__attribute__': self.i+=1
        if self.peek()==('id','union'):
            self.i+=1; self.eat('{'); fs=[]
            while not self.isop('}'):
                b,_=super().base(); x,ty=self.declarator(b); fs.append((x,ty)); self.eat(';')
            self.eat('}'); return ('anon',fs),False
        self.i=k
        return super().base()
    def declarator(self,ty):
        ty=self.stars(ty)
        if self.isop('('):   # ( *x)[n]
            self.i+=1; self.eat('*'); x=self.ident(); self.eat(')'); return x,('ptr',self.arrays(ty))
        x=self.ident(); return x,self.arrays(ty)
    def const(self,e):
        if e[0]=='sym': return SYM[e[1]]
        if e[0]=='bin':
            a,b=self.const(e[2]),self.const(e[3])
            if isinstance(a,str) or isinstance(b,str): return f"({a} {dict(Add='+',Sub='-',Mul='*',Div='/')[e[1]]} {b})"
        return super().const(e)
    def primary(self):
        t=self.peek()
        if t[0]=='id' and t[1] in SYM: self.i+=1; return ('sym',t[1])
        m=t[0]=='id' and re.match(r'BS_VAL(8|16|32|64)$',t[1])
        if m:
            self.i+=1; self.eat('('); s=''
            while not self.isop(')'): u=self.peek(); s+=u[1]+(u[2] if len(u)>2 else ''); self.i+=1
            self.eat(')'); assert len(s)*4==int(m.group(1)),s
            return ('wval',int(m.group(1))//8,int(s,16))
        return super().primary()
    def stmt(self):
        t=self.peek()
        if t==('id','BS_EMPTY'):
            self.i+=1; self.eat('('); self.eat(')'); self.eat(';'); return []
        if t==('id','assert'):
            self.i+=1; self.eat('('); e=self.expr(); self.eat(')'); self.eat(';'); return [('assert',e)]
        m=t[0]=='id' and re.match(r'BS_SWAP(\d+)_LE$',t[1])
        if m and self.isop('(',1):
            self.i+=2; a=self.assign(); self.eat(','); b=self.assign(); self.eat(')'); self.eat(';'); return [('swap',int(m.group(1)),a,b)]
        if t==('id','BS_LOAD_DEINTERLEAVE_8'):
            self.i+=1; self.eat('('); a=self.assign(); self.eat(','); b=self.assign(); self.eat(','); d=self.assign(); self.eat(')'); self.eat(';'); return [('deint',a,b,d)]
        return super().stmt()
    def top(self):
        while self.peek()[0]!='eof':
            if self.isop(';'): self.i+=1; continue
            if self.peek()==('id','typedef'):
                self.i+=1; b,_=self.base(); x,ty=self.declarator(b); self.eat(';')
                if ty[0]=='anon': self.structs[x]=ty[1]; self.unions.add(x); ty=('struct',x)
                self.typedefs[x]=ty; continue
            k=self.i
            self.one()
    def one(self):
        # one declaration or definition: run the parent's loop on it
        sub=self.t; start=self.i; d=0; j=self.i
        while j<len(sub):
            if sub[j][1]in('{','('): d+=1
            if sub[j][1]in('}',')'):
                d-=1
                if d==0 and sub[j][1]=='}' :
                    if j+1<len(sub) and sub[j+1]==('op',';'): j+=1
                    break
            if d==0 and sub[j]==('op',';'): break
            j+=1
        end=j+1
        self.t=sub[:end]; G.P.top(self); self.t=sub; self.i=end
def ct(t):
    if t[0]=='word': return "TWord"
    if t[0]=='int': return f"TInt {t[1]}"
    if t[0]=='ptr': return f"TPtr ({ct(t[1])})"
    if t[0]=='arr': return f"TArr ({ct(t[1])}) {t[2]}"
    if t[0]=='struct': return f'TStruct "{t[1]}"'
    return "TVoid"
def ce(e):
    k=e[0]
    if k=='sym': return f"(EConst I32 {SYM[e[1]]})"
    if k=='wval': return f"(EWVal {e[1]} {hex(e[2])})"
    if k=='const': return f"(EConst {e[1]} {hex(e[2]) if e[2]>9 else e[2]})"
    if k=='var': return f'(EVar "{e[1]}")'
    if k=='bin': return f"(EBin {e[1]} {ce(e[2])} {ce(e[3])})"
    if k=='un': return f"(EUn {e[1]} {ce(e[2])})"
    if k=='assign': return f"(EAssign {ce(e[1])} {ce(e[2])})"
    if k=='opassign': return f"(EOpAssign {e[1]} {ce(e[2])} {ce(e[3])})"
    if k=='post': return f"(EPost {e[1]} {ce(e[2])})"
    if k=='cond': return f"(ECond {ce(e[1])} {ce(e[2])} {ce(e[3])})"
    if k=='cast': return f"(ECast ({ct(e[1])}) {ce(e[2])})"
    if k=='index': return f"(EIndex {ce(e[1])} {ce(e[2])})"
    if k=='deref': return f"(EDeref {ce(e[1])})"
    if k=='addr': return f"(EAddr {ce(e[1])})"
    if k=='field': return f'(EField {ce(e[1])} "{e[2]}")'
    if k=='comma': return f"(EComma {ce(e[1])} {ce(e[2])})"
    if k=='call':
        a=[ce(x) for x in e[2]]
        if e[1] in W2: return f"(EWop {W2[e[1]]} {a[0]} {a[1]})"
        if e[1]=='BS_NOT': return f"(EWNot {a[0]})"
        if e[1]=='BS_SHL': return f"(EWShl {a[0]} {a[1]})"
        if e[1]=='BS_SHR': return f"(EWShr {a[0]} {a[1]})"
        return f'(ECall "{e[1]}" [{"; ".join(a)}])'
    raise Err(k)
def oe(e): return "None" if e is None else f"(Some {ce(e)})"
def cs(s,ind):
    pad=' '*ind; k=s[0]
    if k=='expr': return pad+f"SExpr {ce(s[1])}"
    if k=='decl': return pad+f'SDecl ({ct(s[1])}) "{s[2]}" {oe(s[3])}'
    if k=='return': return pad+f"SReturn {oe(s[1])}"
    if k=='assert': return pad+f"SAssert {ce(s[1])}"
    if k=='swap': return pad+f"SSwap {s[1]} {ce(s[2])} {ce(s[3])}"
    if k=='deint': return pad+f"SDeint {ce(s[1])} {ce(s[2])} {ce(s[3])}"
    if k=='block': return pad+"SBlock "+cl(s[1],ind)
    if k=='if': return pad+f"SIf {ce(s[1])}\n{pad}  ({cs(s[2],ind+2).strip()})\n{pad}  ({cs(s[3],ind+2).strip()})"
    if k=='while': return pad+f"SFor None {ce(s[1])} None\n{pad}  ({cs(s[2],ind+2).strip()})"
    if k=='for': return pad+f"SFor {oe(s[1])} {ce(s[2])} {oe(s[3])}\n{pad}  ({cs(s[4],ind+2).strip()})"
    raise Err(k)
def cl(ss,ind):
    if not ss: return "[]"
    return "[\n"+";\n".join(cs(s,ind+2) for s in ss)+"]"
def cfun(name,f):
    b,ps,body=f
    return f'mk_fun "{name}" ({ct(b)}) ['+"; ".join(f'("{x}", {ct(t)})' for x,t in ps)+"] "+cl(body,2)
FLAGS=[("tgt",TARGETS),("big_endian",[False,True]),("use_alt_sbox",[False,True]),("i386",[False,True]),("have_assert",[False,True])]
def parse(root,cfg):
    d={USE[cfg["tgt"]]:"1","HAVE_ATTRIBUTE_MAY_ALIAS":"1"}
    if not cfg["big_endian"]: d["DVBCSA_ENDIAN_LITTLE"]="1"
    if cfg["use_alt_sbox"]: d["DVBCSA_USE_ALT_SBOX"]="1"
    if cfg["i386"]: d["__i386__"]="1"
    if cfg["have_assert"]: d["HAVE_ASSERT_H"]="1"
    files=["dvbcsa_bs_transpose_block.c","dvbcsa_bs_transpose_stream32.c" if cfg["tgt"]=="UINT32" else "dvbcsa_bs_transpose_stream.c",
           "dvbcsa_bs_block.c","dvbcsa_bs_stream.c","dvbcsa_bs_key.c"]
    pp=PP(root,d); toks=[]
    for f in files: toks.extend(pp.file(f))
    # the loader functions of dvbcsa_bs_algo.c (memory allocation is left out)
    a=pp.file("dvbcsa_bs_algo.c")
    cut=[k for k in range(len(a)) if a[k]==('id','dvbcsa_bs_key_alloc')][-1]
    while a[cut]!=('op','}'): cut-=1
    toks.extend(a[:cut+1])
    p=P(toks); p.top(); return p
ORDER=["dvbcsa_bs_matrix_transpose_block","dvbcsa_bs_block_transpose_in","dvbcsa_bs_block_transpose_out_and_xor",
 "dvbcsa_bs_matrix_transpose_64x","dvbcsa_bs_matrix_transpose_64x32","dvbcsa_bs_stream_transpose_in","dvbcsa_bs_stream_transpose_out",
 "dvbcsa_bs_block_decrypt_register","dvbcsa_bs_block_decrypt_block","dvbcsa_bs_block_decrypt_batch",
 "dvbcsa_bs_block_encrypt_register","dvbcsa_bs_block_encrypt_block","dvbcsa_bs_block_encrypt_batch"]+[f"dvbcsa_bs_stream_sbox{i}" for i in range(1,8)]+[
 "dvbcsa_bs_stream_cipher_kernel_init","dvbcsa_bs_stream_cipher_kernel","dvbcsa_bs_stream_cipher_batch",
 "dvbcsa_pkt_buf_load","dvbcsa_pkt_buf_store","dvbcsa_bs_decrypt","dvbcsa_bs_encrypt","dvbcsa_bs_key_set"]
MISSING='mk_fun "" TVoid [] []'
def bitslice(root):
    cfgs=[dict(zip([f for f,_ in FLAGS],v)) for v in itertools.product(*[vs for _,vs in FLAGS])]
    ps=[(c,parse(root,c)) for c in cfgs]
    out=["(* GENERATED by tools/gen_source_bs.py from the C text of /repo/src (dvbcsa_bs.h, dvbcsa_bs_transpose.h,\n   dvbcsa_bs_stream_kernel.h/.inc and the dvbcsa_bs_*.c files): the syntax trees of the functions, for BsC.v. *)",
     "From Coq Require Import String.","From Verif Require Import Base MiniC ModelBsWord BsC.","Local Open Scope N_scope.","Local Open Scope string_scope.","Import ListNotations.",""]
    def choose(nm,typ,text):
        """text: cfg -> string; emit a definition that depends on c only as far as needed"""
        vals=[(c,text(c,p)) for c,p in ps]
        need=[]
        flags=[f for f,_ in FLAGS]
        # drop flags that do not matter
        keep=list(flags)
        for f in flags:
            rest=[g for g in keep if g!=f]; seen={}
            if all(seen.setdefault(tuple(c[g] for g in rest),v)==v for c,v in vals): keep=rest
        variants=[]
        def tree(vs,ks):
            ds={v for _,v in vs}
            if len(ds)==1:
                v=ds.pop()
                if v not in variants: variants.append(v)
                return f"{nm}_{variants.index(v)+1} c"
            f=ks[0]
            if f=="tgt":
                groups=[]
                for t in TARGETS:
                    sub=[(c,v) for c,v in vs if c["tgt"]==t]; key=tuple((tuple(c[g] for g in ks[1:]),v) for c,v in sub)
                    for g in groups:
                        if g[1]==key: g[0].append(t); break
                    else: groups.append(([t],key,sub))
                if len(groups)==1: return tree(groups[0][2],ks[1:])
                return "match tgt c with "+" | ".join(" | ".join(g[0])+" => "+tree(g[2],ks[1:]) for g in groups)+" end"
            a=[(c,v) for c,v in vs if c[f]]; b=[(c,v) for c,v in vs if not c[f]]
            return f"(if {f} c then {tree(a,ks[1:])} else {tree(b,ks[1:])})"
        body=tree(vals,keep)
        if len(variants)==1: out.append(f"Definition {nm} (c : build) : {typ} := {variants[0]}.\n"); return
        for i,v in enumerate(variants): out.append(f"Definition {nm}_{i+1} (c : build) : {typ} := {v}.\n")
        out.append(f"Definition {nm} (c : build) : {typ} := {body}.\n")
    # tables
    t=next(p for c,p in ps if c["tgt"]=="SSSE3").tabs[(None,"dvbcsa_block_sbox_perm")]
    for c,p in ps: assert p.tabs.get((None,"dvbcsa_block_sbox_perm"),t)==t and set(p.tabs)<={(None,"dvbcsa_block_sbox_perm")}
    assert len(t[1])==256
    out.append(G.table_def("src_tab_dvbcsa_block_sbox_perm",t[1],None,None))
    q=G.parse(root,["dvbcsa_block.c"],{"DVBCSA_ENDIAN_LITTLE":"1"}).tabs[(None,"dvbcsa_block_sbox")]
    out.append(G.table_def("src_tab_bs_block_sbox",q[1],None,None))
    out.append('Definition src_bs_tables (x : string) : option (ity * list N) :=\n  if String.eqb x "dvbcsa_block_sbox" then Some (U8, src_tab_bs_block_sbox) else\n  if String.eqb x "dvbcsa_block_sbox_perm" then Some (U16, src_tab_dvbcsa_block_sbox_perm) else None.\n')
    p0=ps[0][1]
    names=["dvbcsa_bs_key_s","dvbcsa_bs_block8_t","dvbcsa_bs_pkt_buf","dvbcsa_bs_stream_regs_s","dvbcsa_bs_batch_s"]
    def fields(p,s): return f'({"true" if s in p.unions else "false"}, ['+"; ".join(f'("{x}", {ct(t)})' for x,t in p.structs[s])+"])"
    for n in names:
        assert len({fields(p,n) for c,p in ps})==1
    out.append("(* true: a union *)\nDefinition src_bs_structs (c : build) (s : string) : option (bool * list (string * ctype)) :=")
    for n in names: out.append(f'  if String.eqb s "{n}" then Some {fields(p0,n)} else')
    out.append("  None.\n")
    for f in ORDER:
        choose("bs_"+f.replace("dvbcsa_bs_",""),"fundef",lambda c,p,f=f: cfun(f,p.funs[f]) if f in p.funs else MISSING)
    out.append("(* later functions first *)\nDefinition src_bs_program (c : build) : list fundef :=\n  ["+";\n   ".join("bs_"+f.replace("dvbcsa_bs_","")+" c" for f in reversed(ORDER))+"].")
    return "\n".join(out)+"\n"
if __name__=="__main__":
    root=sys.argv[1] if len(sys.argv)>1 else "/repo/src"
    print(bitslice(root),end="")
