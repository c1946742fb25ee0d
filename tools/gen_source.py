#!/usr/bin/env python3
"""Parse C functions of /repo/src (or of the directory given as argv[1]) and print their syntax trees
as Coq terms of MiniC.v.  Only syntax: preprocessing, tokens, precedence.  Types of expressions,
conversions, decay of arrays and so on are the business of the semantics in MiniC.v."""
import re, sys
class Err(Exception): pass
# ---------------------------------------------------------------- preprocessor
TOK=re.compile(r'\s*(?:(0[xX][0-9a-fA-F]+|\d+)([uUlL]*)|([A-Za-z_]\w*)|("(?:[^"\\]|\\.)*")|(\.\.\.|<<=|>>=|->|\+\+|--|<<|>>|<=|>=|==|!=|&&|\|\||[-+*/%&|^!=<>]=|##|[-+*/%&|^~!=<>?:;,.(){}\[\]#])|(\'(?:[^\'\\]|\\.)\'))')
def tokenize(s):
    out=[]; i=0; s=s.rstrip()
    while i<len(s):
        m=TOK.match(s,i)
        if not m: raise Err("token: "+repr(s[i:i+40]))
        if m.group(1) is not None: out.append(('num',m.group(1),m.group(2).lower()))
        elif m.group(3) is not None: out.append(('id',m.group(3)))
        elif m.group(4) is not None: out.append(('str',m.group(4)))
        elif m.group(6) is not None: out.append(('chr',m.group(6)))
        else: out.append(('op',m.group(5)))
        i=m.end()
    return out
def strip_comments(s):
    s=re.sub(r'/\*.*?\*/',lambda m:' '+'\n'*m.group(0).count('\n'),s,flags=re.S)
    return re.sub(r'//[^\n]*','',s)
class PP:
    def __init__(self, root, defines):
        self.root=root; self.m={k:(None,tokenize(v)) for k,v in defines.items()}; self.done=set()
    def cond(self, text):
        t=re.sub(r'defined\s*\(\s*(\w+)\s*\)|defined\s+(\w+)',lambda m:'1' if (m.group(1) or m.group(2)) in self.m else '0',text)
        toks=self.expand(tokenize(t)); e=' '.join({'&&':'and','||':'or','!':'not'}.get(x[1],x[1] if x[0]!='id' else '0') for x in toks)
        return bool(eval(e))
    def file(self, name):
        out=[]; src=strip_comments(open(f"{self.root}/{name}").read())
        src=re.sub(r'\\\n',' \x00',src)   # continued lines
        stack=[]
        buf=''
        def live(): return all(s[0] for s in stack)
        def flush():
            nonlocal buf
            if buf: out.extend(self.expand(tokenize(buf)))
            buf=''
        for line in src.split('\n'):
            line=line.replace('\x00',' ')
            m=re.match(r'\s*#\s*(\w+)\s*(.*)$',line)
            if not m:
                if live(): buf+=line+'\n'
                continue
            if live(): flush()
            d,rest=m.group(1),m.group(2).strip()
            if d=='ifdef': c=rest.split()[0] in self.m; stack.append([c,c])
            elif d=='ifndef': c=rest.split()[0] not in self.m; stack.append([c,c])
            elif d=='if':
                c=self.cond(rest) if live() else False; stack.append([c,c])
            elif d=='elif':
                s=stack[-1]
                if s[1]: s[0]=False
                else: s[0]=self.cond(rest) if all(x[0] for x in stack[:-1]) else False; s[1]=s[0]
            elif d=='else': s=stack[-1]; s[0]=not s[1]; s[1]=True
            elif d=='endif': stack.pop()
            elif live():
                if d=='define':
                    m2=re.match(r'(\w+)(\(([^)]*)\))?(.*)$',rest)
                    if m2.group(2) is not None and rest[len(m2.group(1))]=='(':
                        self.m[m2.group(1)]=([a.strip() for a in m2.group(3).split(',')] if m2.group(3).strip() else [],tokenize(m2.group(4)))
                    else: self.m[m2.group(1)]=(None,tokenize(rest[len(m2.group(1)):]))
                elif d=='undef': self.m.pop(rest,None)
                elif d=='include':
                    m2=re.match(r'"([^"]+)"',rest)
                    if m2 and m2.group(1)!='config.h': out.extend(self.file(m2.group(1)))
        flush()
        return out
    def expand(self, toks, hide=frozenset()):
        out=[]; i=0
        while i<len(toks):
            t=toks[i]
            if t[0]=='id' and t[1] in self.m and t[1] not in hide:
                params,body=self.m[t[1]]
                if params is None:
                    out.extend(self.expand(body,hide|{t[1]})); i+=1; continue
                if i+1<len(toks) and toks[i+1]==('op','('):
                    j=i+2; depth=0; args=[[]]
                    while True:
                        u=toks[j]
                        if u==('op',')') and depth==0: break
                        if u==('op',',') and depth==0: args.append([])
                        else:
                            if u[1]=='(' : depth+=1
                            if u[1]==')' : depth-=1
                            args[-1].append(u)
                        j+=1
                    if not params: args=[]
                    if len(args)!=len(params): raise Err("macro args "+t[1])
                    d=dict(zip(params,args)); sub=[]; k=0
                    while k<len(body):
                        b=body[k]
                        if k+2<len(body) and body[k+1]==('op','##'):
                            l=d.get(b[1],[b]); r=d.get(body[k+2][1],[body[k+2]])
                            sub.extend(l[:-1]); sub.extend(tokenize(l[-1][1]+r[0][1])); sub.extend(r[1:]); k+=3; continue
                        if b[0]=='id' and b[1] in d: sub.extend(self.expand(d[b[1]],hide))
                        else: sub.append(b)
                        k+=1
                    out.extend(self.expand(sub,hide|{t[1]})); i=j+1; continue
            out.append(t); i+=1
        return out
# ---------------------------------------------------------------- parser
BASE={'uint8_t':'U8','uint16_t':'U16','uint32_t':'U32','uint64_t':'U64','int':'I32','unsigned':'U32','size_t':'U64'}
QUAL={'const','static','inline','register','extern','volatile','__attribute__'}
class P:
    def __init__(self, toks, typedefs=None):
        self.t=toks; self.i=0; self.typedefs=typedefs if typedefs is not None else {}; self.structs={}; self.funs={}; self.tabs={}; self.scope=None
    def peek(self,k=0): return self.t[self.i+k] if self.i+k<len(self.t) else ('eof','')
    def isop(self,o,k=0): return self.peek(k)==('op',o)
    def eat(self,o):
        if self.peek()!=('op',o): raise Err(f"expected {o}, got {self.t[self.i:self.i+8]}")
        self.i+=1
    def ident(self):
        t=self.peek()
        if t[0]!='id': raise Err(f"identifier expected: {self.t[self.i:self.i+8]}")
        self.i+=1; return t[1]
    def is_type(self,k=0):
        t=self.peek(k); return t[0]=='id' and (t[1] in BASE or t[1] in QUAL or t[1] in self.typedefs or t[1] in('struct','void','char','union','typedef'))
    def base(self):
        ty=None; uns=False; static=False; char=False
        while True:
            t=self.peek()
            if t[0]!='id': break
            if t[1] in QUAL:
                if t[1]=='static': static=True
                self.i+=1
                if t[1]=='__attribute__': self.parens()
                continue
            if ty is not None: break
            if t[1]=='unsigned':
                self.i+=1
                if self.peek()==('id','char'): self.i+=1; ty=('int','U8')
                elif self.peek()==('id','int'): self.i+=1; ty=('int','U32')
                else: ty=('int','U32')
                continue
            if t[1] in BASE: self.i+=1; ty=('int',BASE[t[1]]); continue
            if t[1]=='void': self.i+=1; ty=('void',); continue
            if t[1]=='char': self.i+=1; ty=('int','I8'); continue
            if t[1]=='struct':
                self.i+=1; n=self.ident()
                if self.isop('{'):
                    self.i+=1; fs=[]
                    while not self.isop('}'):
                        b,_=self.base()
                        while True:
                            x,fty=self.declarator(b); fs.append((x,fty))
                            if self.isop(','): self.i+=1; continue
                            break
                        self.eat(';')
                    self.eat('}'); self.structs[n]=fs
                ty=('struct',n); continue
            if t[1] in self.typedefs: self.i+=1; ty=self.typedefs[t[1]]; continue
            break
        if ty is None: raise Err(f"type expected: {self.t[self.i:self.i+8]}")
        return ty,static
    def parens(self):
        d=0
        while True:
            if self.isop('('): d+=1
            if self.isop(')'): d-=1
            self.i+=1
            if d==0: return
    def stars(self,ty):
        while self.isop('*') or self.peek()[1] in ('const','register'):
            if self.isop('*'): ty=('ptr',ty)
            self.i+=1
        return ty
    def declarator(self,ty):
        ty=self.stars(ty); x=self.ident(); return x,self.arrays(ty)
    def arrays(self,ty):
        dims=[]
        while self.isop('['):
            self.i+=1; dims.append(self.const(self.expr())); self.eat(']')
        for d in reversed(dims): ty=('arr',ty,d)
        return ty
    def const(self,e):
        if e[0]=='const': return e[2]
        if e[0]=='bin':
            a,b=self.const(e[2]),self.const(e[3]); return {'Add':a+b,'Sub':a-b,'Mul':a*b,'Div':a//b if b else 0}[e[1]]
        raise Err("constant expected")
    # expressions
    def expr(self):
        e=self.assign()
        while self.isop(','): self.i+=1; e=('comma',e,self.assign())
        return e
    OPS={'+':'Add','-':'Sub','*':'Mul','/':'Div','%':'Mod','&':'And','|':'Or','^':'Xor','<<':'Shl','>>':'Shr','<':'Lt','>':'Gt','<=':'Le','>=':'Ge','==':'Eq','!=':'Ne'}
    LEV=[['|'],['^'],['&'],['==','!='],['<','>','<=','>='],['<<','>>'],['+','-'],['*','/','%']]
    def assign(self):
        l=self.cond()
        if self.isop('='): self.i+=1; return ('assign',l,self.assign())
        t=self.peek()
        if t[0]=='op' and len(t[1])>1 and t[1][-1]=='=' and t[1][:-1] in self.OPS and t[1] not in('<=','>=','==','!='):
            self.i+=1; return ('opassign',self.OPS[t[1][:-1]],l,self.assign())
        return l
    def cond(self):
        c=self.lor()
        if self.isop('?'):
            self.i+=1; a=self.expr(); self.eat(':'); b=self.cond(); return ('cond',c,a,b)
        return c
    def lor(self):
        if any(self.isop(o) for o in ('&&','||')): raise Err("logical")
        e=self.level(0)
        if self.isop('&&') or self.isop('||'): raise Err("logical operators not supported")
        return e
    def level(self,k):
        if k==len(self.LEV): return self.unary()
        e=self.level(k+1)
        while self.peek()[0]=='op' and self.peek()[1] in self.LEV[k]:
            o=self.peek()[1]; self.i+=1; e=('bin',self.OPS[o],e,self.level(k+1))
        return e
    def typename(self):
        b,_=self.base(); return self.arrays(self.stars(b))
    def unary(self):
        t=self.peek()
        if t==('op','('):
            if self.is_type(1):
                self.i+=1; ty=self.typename(); self.eat(')'); return ('cast',ty,self.unary())
        if t==('id','sizeof'):
            self.i+=1
            if self.isop('(') and self.is_type(1):
                self.i+=1; ty=self.typename(); self.eat(')'); return ('sizeoft',ty)
            return ('sizeofe',self.unary())
        if t[0]=='op':
            if t[1]=='~': self.i+=1; return ('un','Not',self.unary())
            if t[1]=='-': self.i+=1; return ('un','Neg',self.unary())
            if t[1]=='*': self.i+=1; return ('deref',self.unary())
            if t[1]=='&': self.i+=1; return ('addr',self.unary())
            if t[1] in('++','--'):
                self.i+=1; e=self.unary(); return ('opassign','Add' if t[1]=='++' else 'Sub',e,('const','I32',1))
        return self.postfix()
    def postfix(self):
        e=self.primary()
        while True:
            if self.isop('['): self.i+=1; j=self.expr(); self.eat(']'); e=('index',e,j)
            elif self.isop('('):
                self.i+=1; args=[]
                while not self.isop(')'):
                    args.append(self.assign())
                    if self.isop(','): self.i+=1
                self.eat(')')
                if e[0]!='var': raise Err("call through pointer")
                e=('call',e[1],args)
            elif self.isop('->'): self.i+=1; e=('field',('deref',e),self.ident())
            elif self.isop('.'): self.i+=1; e=('field',e,self.ident())
            elif self.isop('++'): self.i+=1; e=('post','Add',e)
            elif self.isop('--'): self.i+=1; e=('post','Sub',e)
            else: return e
    def primary(self):
        t=self.peek()
        if t[0]=='num':
            self.i+=1; v=int(t[1],0); hexa=t[1][:2] in('0x','0X'); s=t[2]
            u='u' in s; l=s.count('l')
            # C99 6.4.4.1, int 32 bits, long and long long 64 bits
            cand=[]
            if l==0 and not u: cand=['I32']+(['U32'] if hexa else [])+['I64']+(['U64'] if hexa else [])
            elif l==0: cand=['U32','U64']
            elif not u: cand=['I64']+(['U64'] if hexa else [])
            else: cand=['U64']
            mx={'I32':2**31,'U32':2**32,'I64':2**63,'U64':2**64}
            ty=next(c for c in cand if v<mx[c]); return ('const',ty,v)
        if t[0]=='id':
            self.i+=1
            return ('var',t[1])
        if t==('op','('):
            self.i+=1; e=self.expr(); self.eat(')'); return e
        raise Err(f"expression expected: {self.t[self.i:self.i+8]}")
    # statements
    def block(self):
        self.eat('{'); ss=[]
        while not self.isop('}'): ss.extend(self.stmt())
        self.eat('}'); return ss
    def stmt(self):
        if self.isop(';'): self.i+=1; return []
        if self.isop('{'): return [('block',self.block())]
        t=self.peek()
        if t==('id','if'):
            self.i+=1; self.eat('('); c=self.expr(); self.eat(')'); a=self.stmt(); b=[]
            if self.peek()==('id','else'): self.i+=1; b=self.stmt()
            return [('if',c,('block',self.unb(a)),('block',self.unb(b)))]
        if t==('id','while'):
            self.i+=1; self.eat('('); c=self.expr(); self.eat(')'); return [('while',c,('block',self.unb(self.stmt())))]
        if t==('id','for'):
            self.i+=1; self.eat('('); a=None if self.isop(';') else self.expr(); self.eat(';'); c=self.expr(); self.eat(';')
            s=None if self.isop(')') else self.expr(); self.eat(')')
            return [('for',a,c,s,('block',self.unb(self.stmt())))]
        if t==('id','return'):
            self.i+=1; e=None if self.isop(';') else self.expr(); self.eat(';'); return [('return',e)]
        if self.is_type() and not (self.isop('(',1) and not self.isop('*',2)):
            b,static=self.base(); out=[]
            while True:
                x,ty=self.declarator(b)
                if self.isop('='):
                    self.i+=1
                    if self.isop('{'):
                        if not static: raise Err("initialiser of automatic array")
                        self.tabs[(self.fn,x)]=(ty,self.init())
                    else: out.append(('decl',ty,x,self.assign()))
                else: out.append(('decl',ty,x,None))
                if self.isop(','): self.i+=1; continue
                break
            self.eat(';'); return out
        e=self.expr(); self.eat(';'); return [('expr',e)]
    def unb(self,ss): return ss[0][1] if len(ss)==1 and ss[0][0]=='block' else ss
    def init(self):
        self.eat('{'); out=[]
        while not self.isop('}'):
            if self.isop('{'): out.extend(self.init())
            else: out.append(self.const(self.assign()))
            if self.isop(','): self.i+=1
        self.eat('}'); return out
    def top(self):
        while self.peek()[0]!='eof':
            if self.isop(';'): self.i+=1; continue
            if self.peek()==('id','typedef'):
                self.i+=1; b,_=self.base(); x,ty=self.declarator(b); self.eat(';'); self.typedefs[x]=ty; continue
            self.fn=None
            b,_=self.base()
            if self.isop(';'): self.i+=1; continue
            b=self.stars(b)
            while self.peek()==('id','__attribute__'): self.i+=1; self.parens()
            x=self.ident()
            if self.isop('('):
                self.i+=1; ps=[]
                while not self.isop(')'):
                    pb,_=self.base(); pt=self.stars(pb); pn=''
                    if self.peek()[0]=='id': pn=self.ident()
                    pt=self.arrays(pt)
                    if pt[0]=='arr': pt=('ptr',pt[1])
                    if pt!=('void',): ps.append((pn,pt))
                    if self.isop(','): self.i+=1
                self.eat(')')
                if self.isop(';'): self.i+=1; continue
                self.fn=x; body=self.block(); self.funs[x]=(b,ps,body); continue
            ty=self.arrays(b)
            if self.isop('='):
                self.i+=1; self.tabs[(None,x)]=(ty,self.init())
            self.eat(';')
# ---------------------------------------------------------------- Coq output
def ct(t):
    if t[0]=='int': return f"TInt {t[1]}"
    if t[0]=='ptr': return f"TPtr ({ct(t[1])})"
    if t[0]=='arr': return f"TArr ({ct(t[1])}) {t[2]}"
    if t[0]=='struct': return f'TStruct "{t[1]}"'
    return "TVoid"
def ce(e):
    k=e[0]
    if k=='const': return f"(EConst {e[1]} {hex(e[2]) if e[2]>9 else e[2]})"
    if k=='var': return f'(EVar "{e[1]}")'
    if k=='bin': return f"(EBin {e[1]} {ce(e[2])} {ce(e[3])})"
    if k=='un': return f"(EUn {e[1]} {ce(e[2])})"
    if k=='assign': return f"(EAssign {ce(e[1])} {ce(e[2])})"
    if k=='opassign': return f"(EOpAssign {e[1]} {ce(e[2])} {ce(e[3])})"
    if k=='post': return f"(EPost {e[1]} {ce(e[2])})"
    if k=='cond': return f"(ECond {ce(e[1])} {ce(e[2])} {ce(e[3])})"
    if k=='cast': return f"(ECast ({ct(e[1])}) {ce(e[2])})"
    if k=='index': return f"(EIndex {ce(e[1])} {ce(e[2])})"
    if k=='deref': return f"(EDeref {ce(e[1])})"
    if k=='addr': return f"(EAddr {ce(e[1])})"
    if k=='field': return f'(EField {ce(e[1])} "{e[2]}")'
    if k=='sizeofe': return f"(ESizeof {ce(e[1])})"
    if k=='sizeoft': return f"(ESizeofT ({ct(e[1])}))"
    if k=='comma': return f"(EComma {ce(e[1])} {ce(e[2])})"
    if k=='call': return f'(ECall "{e[1]}" [{"; ".join(ce(a) for a in e[2])}])'
    raise Err(k)
def oe(e): return "None" if e is None else f"(Some {ce(e)})"
def cs(s,ind):
    pad=' '*ind; k=s[0]
    if k=='expr': return pad+f"SExpr {ce(s[1])}"
    if k=='decl': return pad+f'SDecl ({ct(s[1])}) "{s[2]}" {oe(s[3])}'
    if k=='return': return pad+f"SReturn {oe(s[1])}"
    if k=='block': return pad+"SBlock "+cl(s[1],ind)
    if k=='if': return pad+f"SIf {ce(s[1])}\n{pad}  ({cs(s[2],ind+2).strip()})\n{pad}  ({cs(s[3],ind+2).strip()})"
    if k=='while': return pad+f"SWhile {ce(s[1])}\n{pad}  ({cs(s[2],ind+2).strip()})"
    if k=='for': return pad+f"SFor {oe(s[1])} {ce(s[2])} {oe(s[3])}\n{pad}  ({cs(s[4],ind+2).strip()})"
    raise Err(k)
def cl(ss,ind):
    if not ss: return "[]"
    return "[\n"+";\n".join(cs(s,ind+2) for s in ss)+"]"
def rename(node,sub,bound=frozenset()):
    """static tables of a function get the name function.table"""
    if isinstance(node,tuple):
        if node[0]=='var': return ('var',sub.get(node[1],node[1]))
        return tuple(rename(x,sub) if isinstance(x,(tuple,list)) else x for x in node)
    if isinstance(node,list): return [rename(x,sub) for x in node]
    return node
def cfun(name,f,sub):
    b,ps,body=f; body=rename(body,sub)
    return f'mk_fun "{name}" ({ct(b)}) ['+"; ".join(f'("{x}", {ct(t)})' for x,t in ps)+"] "+cl(body,2)
def tables(p): return p.tabs
def parse(root,files,defines):
    pp=PP(root,defines); toks=[]
    for f in files: toks.extend(pp.file(f))
    p=P(toks); p.top(); return p
def table_def(nm,lst,ity,dims):
    rows=";\n".join("   "+"; ".join(hex(v) for v in lst[i:i+8]) for i in range(0,len(lst),8))
    return f"Definition {nm} : list N := [\n{rows}]."
def classical(root):
    files=["dvbcsa_key.c","dvbcsa_block.c","dvbcsa_stream.c","dvbcsa_algo.c"]
    le=parse(root,files,{"DVBCSA_ENDIAN_LITTLE":"1"}); be=parse(root,files,{})
    order=["dvbcsa_xor_64","dvbcsa_load_le32","dvbcsa_load_le64","dvbcsa_store_le64","dvbcsa_key_permute_block","dvbcsa_key_schedule_block",
      "dvbcsa_key_set","dvbcsa_block_decrypt","dvbcsa_block_encrypt","swap_nbl","csa_stream_rotate","csa_stream_sboxes","csa_stream_B_sel","csa_stream_cfed",
      "csa_stream_init_round","csa_stream_round","dvbcsa_stream_xor","dvbcsa_decrypt","dvbcsa_encrypt"]
    out=["(* GENERATED by tools/gen_source.py from the C text of /repo/src (dvbcsa_pv.h, "+", ".join(files)+"):\n   the syntax trees of the functions, for MiniC.v. *)",
     "From Coq Require Import String.","From Verif Require Import Base MiniC.","Local Open Scope N_scope.","Local Open Scope string_scope.","Import ListNotations.",""]
    tabs=[]
    for (fn,x),(ty,l) in le.tabs.items():
        nm="src_tab_"+x; out.append(table_def(nm,l,None,None)); tabs.append((f"{fn}.{x}" if fn else x,ty,nm)); assert be.tabs[(fn,x)]==(ty,l)
        n=1; t=ty
        while t[0]=='arr': n*=t[2]; t=t[1]
        assert n==len(l),(x,n,len(l))
    out.append("Definition src_tables (x : string) : option (ctype * list N) :=")
    for q,ty,nm in tabs: out.append(f'  if String.eqb x "{q}" then Some ({ct(ty)}, {nm}) else')
    out.append("  None.\n")
    def fields(p,s): return "["+"; ".join(f'("{x}", {ct(t)})' for x,t in p.structs[s])+"]"
    out.append("Definition src_structs (s : string) : list (string * ctype) :=")
    out.append(f'  if String.eqb s "dvbcsa_key_s" then {fields(le,"dvbcsa_key_s")} else [].\n')
    for f in order:
        sub={x:f"{fn}.{x}" for (fn,x) in le.tabs if fn==f}
        a=cfun(f,le.funs[f],sub); b=cfun(f,be.funs[f],sub)
        if a==b: out.append(f"Definition src_{f} : fundef := {a}.\n")
        else:
            out.append(f"Definition src_{f}_le : fundef := {a}.\n"); out.append(f"Definition src_{f}_be : fundef := {b}.\n")
            out.append(f"Definition src_{f} (be : bool) : fundef := if be then src_{f}_be else src_{f}_le.\n")
    dep={f for f in order if cfun(f,le.funs[f],{})!=cfun(f,be.funs[f],{})}
    out.append("(* later functions first *)\nDefinition src_program (be : bool) : list fundef :=\n  ["+";\n   ".join(f"src_{f}"+(" be" if f in dep else "") for f in reversed(order))+"].")
    return "\n".join(out)+"\n"
if __name__=="__main__":
    root=sys.argv[1] if len(sys.argv)>1 else "/repo/src"
    print(classical(root),end="")
