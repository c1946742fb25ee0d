#!/usr/bin/env python3
"""Expand the macros that the headers of the word types (dvbcsa_bs_uint32.h, ...) of /repo/src (or of
the directory given as argv[1]) define, on variables of the parameters' names, parse the result and
print it as Coq terms of Header.v: for every word type, one entry per macro and one per constant
BS_VALn(..) used in the bitslice sources.  Only syntax, as in gen_source.py."""
import sys, re, os, glob
sys.path.insert(0,os.path.dirname(os.path.abspath(__file__)))
import gen_source as G
from gen_source import Err
# preprocessing numbers: one token, so that ## works as in C
TOK=re.compile(r'\s*(?:(\.?[0-9][0-9A-Za-z_]*)|([A-Za-z_]\w*)|("(?:[^"\\]|\\.)*")|(\.\.\.|<<=|>>=|->|\+\+|--|<<|>>|<=|>=|==|!=|&&|\|\||[-+*/%&|^!=<>]=|##|[-+*/%&|^~!=<>?:;,.(){}\[\]#]))')
def tokenize(s):
    out=[]; i=0; s=s.rstrip()
    while i<len(s):
        m=TOK.match(s,i)
        if not m: raise Err("token: "+repr(s[i:i+40]))
        for k,n in ((1,'num'),(2,'id'),(3,'str'),(4,'op')):
            if m.group(k) is not None: out.append((n,m.group(k)))
        i=m.end()
    return out
G.tokenize=tokenize
class PP(G.PP):
    def expand(self,toks,hide=frozenset()):
        out=[]; i=0
        while i<len(toks):
            t=toks[i]
            if t[0]=='id' and t[1] in self.m and t[1] not in hide:
                params,body=self.m[t[1]]
                if params is None: out.extend(self.expand(body,hide|{t[1]})); i+=1; continue
                if i+1<len(toks) and toks[i+1]==('op','('):
                    j=i+2; depth=0; args=[[]]
                    while True:
                        u=toks[j]
                        if u==('op',')') and depth==0: break
                        if u==('op',',') and depth==0: args.append([])
                        else:
                            depth+=(u==('op','('))-(u==('op',')')); args[-1].append(u)
                        j+=1
                    if not params: args=[]
                    if len(args)!=len(params): raise Err("macro args "+t[1])
                    d=dict(zip(params,args)); sub=[]; k=0
                    raw=lambda b: d[b[1]] if b[0]=='id' and b[1] in d else [b]
                    while k<len(body):
                        b=body[k]
                        if k+1<len(body) and body[k+1]==('op','##'):
                            cur=list(raw(b))
                            while k+1<len(body) and body[k+1]==('op','##'):
                                r=raw(body[k+2]); cur=cur[:-1]+tokenize(cur[-1][1]+r[0][1])+list(r[1:]); k+=2
                            sub.extend(cur)
                        elif b[0]=='id' and b[1] in d: sub.extend(self.expand(d[b[1]],hide))
                        else: sub.append(b)
                        k+=1
                    out.extend(self.expand(sub,hide|{t[1]})); i=j+1; continue
            out.append(t); i+=1
        return out
def numbers(toks):   # preprocessing numbers become integer constants
    out=[]
    for t in toks:
        if t[0]=='num':
            m=re.match(r'(0[xX][0-9a-fA-F]+|\d+)([uUlL]*)$',t[1])
            if not m: raise Err("number "+t[1])
            out.append(('num',m.group(1),m.group(2).lower()))
        else: out.append(t)
    return out
VEC={'__m64':'CReg','__m128i':'CReg','__m256i':'CReg','uint64x2_t':'CReg','uint8x16x2_t':'CPair','uint16x8x2_t':'CPair','uint32x4x2_t':'CPair'}
def parser(toks): return G.P(numbers(toks),{k:('vec',v) for k,v in VEC.items()})
def ct(t):
    if t[0]=='int': return f"(CInt {t[1]})"
    if t[0]=='vec': return t[1]
    if t[0]=='ptr': return "CPtr"
    raise Err(f"type {t}")
def ce(e):
    k=e[0]
    if k=='const': return f"(HNum {e[1]} {hex(e[2]) if e[2]>9 else e[2]})"
    if k=='var': return f'(HVar "{e[1]}")'
    if k=='bin': return f"(HBin {e[1]} {ce(e[2])} {ce(e[3])})"
    if k=='un' and e[1]=='Not': return f"(HNot {ce(e[2])})"
    if k=='cast': return f"(HCast {ct(e[1])} {ce(e[2])})"
    if k=='call': return f'(HCall "{e[1]}" [{"; ".join(map(ce,e[2]))}])'
    if k=='index' and e[1][0]=='field' and e[1][2]=='val' and e[2][0]=='const': return f"(HPart {ce(e[1][1])} {e[2][2]})"
    raise Err(f"expression {e}")
def ca(e):
    if e[0]=='assign' and e[1][0]=='var': return f'(HSet "{e[1][1]}" {ce(e[2])})'
    if e[0]=='post' and e[2][0]=='var': return f'(HSet "{e[2][1]}" (HBin {e[1]} {ce(e[2])} (HNum I32 1)))'
    if e[0]=='call': return f'(HDo "{e[1]}" [{"; ".join(map(ce,e[2]))}])'
    raise Err(f"statement {e}")
def cs(s,ind):
    pad=' '*ind
    if s[0]=='decl': return pad+f'HDecl {ct(s[1])} "{s[2]}" '+("None" if s[3] is None else f"(Some {ce(s[3])})")
    if s[0]=='expr': return pad+'HAct '+ca(s[1])
    if s[0]=='block': return pad+"HBlock ["+";\n".join(cs(x,ind+1) for x in s[1]).lstrip()+"]"
    if s[0]=='for': return pad+f"HFor {ca(s[1])} {ce(s[2])} {ca(s[3])} [\n"+";\n".join(cs(x,ind+2) for x in s[4][1])+"]"
    raise Err(f"statement {s}")
def hygienic(name,params,body):
    """precedence cannot change with the arguments: each parameter stands alone between ( or , and , or ), or is pasted
    with ##, or is the target of an assignment statement; an expression macro is a call, or inside parentheses"""
    for i,t in enumerate(body):
        if t[0]!='id' or t[1] not in (params or []): continue
        a=body[i-1] if i else ('op',';'); b=body[i+1] if i+1<len(body) else ('op',';')
        if ('op','##') in (a,b): continue
        if a[1] in '(,' and b[1] in '),': continue
        if a[1] in '{;}' and b[1]=='=': continue
        raise Err(f"{name}: parameter {t[1]} not in parentheses")
    if not body or len(body)==1 or name in STMT: return
    k=1 if body[0][0]=='id' else 0; depth=0
    if [x[1] for x in body]==['0x','##','n']: return
    if body[k]!=('op','('): raise Err(f"{name}: not in parentheses")
    for i in range(k,len(body)):
        depth+=(body[i]==('op','('))-(body[i]==('op',')'))
        if depth==0 and i!=len(body)-1: raise Err(f"{name}: not in parentheses")
TARGETS=[("UINT32","uint32",{}),("UINT64","uint64",{"SIZEOF_LONG":"8"}),("MMX","mmx",{}),("SSE2","sse",{}),("SSSE3","sse",{"DVBCSA_USE_SSSE3":"1"}),("AVX2","avx2",{}),("NEON","neon",{})]
EXPR={"BS_AND":"ww","BS_OR":"ww","BS_XOR":"ww","BS_NOT":"w","BS_SHL":"wi","BS_SHR":"wi","BS_BATCH_SIZE":None,"BS_BATCH_BYTES":None}
STMT={"BS_SWAP32_LE":("t","b"),"BS_SWAP16_LE":("t","b"),"BS_SWAP8_LE":("t","b"),"BS_SWAP4_LE":("t","b"),"BS_SWAP2_LE":("t","b"),"BS_SWAP1_LE":("t","b"),
      "BS_LOAD_DEINTERLEAVE_8":("ptr","lo","hi"),"BLOCK_SBOX_PERMUTE":("src","dst")}
PT={"t":"word","b":"word","ptr":"CPtr","lo":"word","hi":"word","src":"CPtr","dst":"CPtr","a":"word","n":"(CInt I32)"}
def main(root):
    consts=set()
    for f in sorted(glob.glob(root+"/dvbcsa_bs_*.[ch]")):
        if re.search(r'_(uint32|uint64|mmx|sse|avx2|neon|altivec)\.h$',f): continue
        consts|=set(re.findall(r'\bBS_VAL(8|16|32|64)\((\w+)\)',G.strip_comments(open(f).read())))
    consts=sorted(consts,key=lambda x:(int(x[0]),x[1]))
    print("(** HeaderSource.v -- generated by tools/gen_header.py from /repo/src; do not edit.\n    The macros of the headers of the word types, expanded and parsed. *)")
    print("From Coq Require Import String.\nFrom Verif Require Import Base ModelBsWord MiniC Header.\nLocal Open Scope string_scope.\nLocal Open Scope list_scope.\nLocal Open Scope N_scope.\n")
    print("(* the constants BS_VALn(v) of the bitslice sources: name, bytes, value *)")
    print("Definition constants : list (string * (nat * N)) :=\n  ["+";\n   ".join(f'("BS_VAL{n}({v})", ({int(n)//8}%nat, {hex(int(v,16))}))' for n,v in consts)+"].\n")
    for n,v in consts: assert len(v)*4==int(n)
    for T,h,defs in TARGETS:
        pp=PP(root,defs); toks=pp.file(f"dvbcsa_bs_{h}.h")
        p=parser(toks); p.typedefs=dict(p.typedefs); p.top()
        word=ct(p.typedefs['dvbcsa_bs_word_t']); tds=p.typedefs
        for m,(ps,body) in pp.m.items():
            if m in EXPR or m in STMT or m.startswith("BS_VAL"): hygienic(m,ps,body)
        entries=[]
        def macro(name,params,text,is_expr):
            q=G.P(numbers(pp.expand(tokenize(text))),tds)
            if is_expr:
                e=q.expr(); body=""; ret=f"(Some {ce(e)})"
            else:
                ss=[]
                while q.peek()[0]!='eof': ss.extend(q.stmt())
                body=";\n".join(cs(x,4) for x in ss); ret="None"
            if q.peek()[0]!='eof': raise Err(f"rest of {name}: {q.t[q.i:]}")
            ps="; ".join(f'("{x}", {word if y=="word" else y})' for x,y in params)
            entries.append(f'("{name}", mk_hfun [{ps}] [{chr(10)+body if body else ""}] {ret})')
        for m,ps in EXPR.items():
            if m not in pp.m: raise Err("no "+m)
            prm=[] if ps is None else [(x,"word" if y=='w' else "(CInt I32)") for x,y in zip("ab" if ps=="ww" else "an",ps)]
            macro(m,prm,m if ps is None else m+"("+",".join(x for x,_ in prm)+")",True)
        for n,v in consts:
            if "BS_VAL"+n in pp.m: macro(f"BS_VAL{n}({v})",[],f"BS_VAL{n}({v})",True)
        for m,ps in STMT.items():
            if m in pp.m: macro(m,[(x,PT[x]) for x in ps],f"{m}({','.join(ps)});",False)
        for f,(ret,ps,body) in p.funs.items():
            pr="; ".join(f'("{x}", {ct(t)})' for x,t in ps)
            entries.append(f'("{f}", mk_hfun [{pr}] [\n'+";\n".join(cs(x,4) for x in body)+"] None)")
        print(f"(* dvbcsa_bs_{h}.h *)\nDefinition {T.lower()}_header : list (string * hfun) :=\n  ["+";\n   ".join(entries)+"].\n")
    print("Definition header (t : target) : list (string * hfun) :=\n  match t with\n"+"".join(f"  | {T} => {T.lower()}_header\n" for T,_,_ in TARGETS)+"  end.")
if __name__=="__main__": main(sys.argv[1] if len(sys.argv)>1 else "/repo/src")
