import sys,glob,os
sys.path.insert(0, os.path.dirname(os.path.abspath(__file__)))
from rs import *
def strip_attrs(ts):
    p=P(ts); out=[]
    while p.i<len(ts):
        if p.at('#') and p.at('[',1): p.i+=1; p.group()
        else: out.append(p.next())
    return out
def words(ts):
    out=[]
    for k,v,j,_ in ts:
        if k=='lt': out+=["'",v[1:]]
        else: out.append(v)
    return out
def match(w,i):
    st=0
    for j in range(i,len(w)):
        if w[j] in '([{': st+=1
        elif w[j] in ')]}' :
            st-=1
            if st==0: return j
def norm(w):
    # arms: unwrap blocks without statements, end the others with a comma
    out=[]; i=0
    w=[x for k,x in enumerate(w)]
    res=[]
    def arms(w):
        out=[]; i=0
        while i<len(w):
            if w[i]=='=' and i+1<len(w) and w[i+1]=='>':
                out+=['=','>']; i+=2
                if w[i]=='{':
                    j=match(w,i); inner=w[i+1:j]
                    d=0; semi=False
                    for x in inner:
                        if x in '([{': d+=1
                        elif x in ')]}': d-=1
                        elif x==';' and d==0: semi=True
                    if semi: out+=['{']+arms(inner)+['}']
                    else: out+=arms(inner)+[',']
                    i=j+1
                    if i<len(w) and w[i]==',': i+=1
            else: out.append(w[i]); i+=1
        return out
    w=arms(w)
    out=[]
    for k,x in enumerate(w):
        if x==',' and k+1<len(w) and w[k+1] in (')','}',']','>','{',';'):
            # keep the comma that ends an arm
            out.append('\0' if w[k+1]=='}' else '')
        else: out.append(x)
    # remove commas before '}' unless inside a match
    fin=[]; st=[]
    prev_match=False
    for k,x in enumerate(out):
        if x in ('(','[','{'):
            m=False
            if x=='{':
                # is this the brace of a match?
                seg=[]
                for y in reversed(out[:k]):
                    if y in ('{','}',';'): break
                    seg.append(y)
                m='match' in seg
            st.append(m); fin.append(x)
        elif x in (')',']','}'): st.pop(); fin.append(x)
        elif x=='\0':
            if st[-1]: fin.append(',')
        elif x=='': pass
        else: fin.append(x)
    return fin
def stmts(ts):
    p=P(ts); out=[]
    while p.i<len(ts):
        if p.eat('let'):
            assert p.eat('_'); p.exp('='); e=p.path(True); p.exp(';'); out.append(f'YLet QWild None (Some (XPath None {e}))')
        else: raise Exception(ts[p.i:p.i+5])
    return lst(out)
def recv(ts):
    """function arguments"""
    p=P(ts); out=[]
    while p.i<len(ts):
        ref='None'; m='false'
        if p.eat('&'):
            ref='(Some None)'
            if p.peek()[0]=='lt': ref=f'(Some (Some {q(p.next()[1])}))'
        if p.eat('mut'): m='true'
        if p.at('self'):
            p.next(); c='None'
            if p.eat(':'): c=f'(Some {p.ty()})'
            out.append(f'FRecv [] {ref} {m} {c}')
        elif p.at('_'): p.next(); p.exp(':'); out.append(f'FTyped [] QWild {p.ty()}')
        else:
            i=p.ident(); p.exp(':'); out.append(f'FTyped [] (QBind {m} {ident(i)}) {p.ty()}')
        p.eat(',')
    return lst(out)
def impl(p,attrs,body=stmts):
    un=p.eat('unsafe'); p.exp('impl'); g=p.generics(); neg=p.eat('!')
    t=p.ty(); tr='None'
    if p.eat('for'):
        assert t.startswith('(TyPath None '),t
        tr=f'(Some ({"true" if neg else "false"}, {t[len("(TyPath None "):-1]}))'; t=p.ty()
    w=p.where(); o,ts=p.group(); b=P(ts); its=[]
    while b.i<len(ts):
        a=b.attrs(); v=b.vis()
        if b.at('const') and not b.at('fn',1) and not b.at('unsafe',1):
            b.next(); i=b.ident()
            while not b.eat(';'): b.next()
            its.append(f'IIConst {ident(i)}'); continue
        if b.eat('type'):
            i=b.ident()
            while not b.eat(';'): b.next()
            its.append(f'IIType {ident(i)}'); continue
        c=b.eat('const'); as_=b.eat('async'); u=b.eat('unsafe'); ext=False
        if b.eat('extern'):
            ext=True
            if b.peek()[0]=='lit': b.next()
        b.exp('fn'); i=b.ident(); fg=b.generics(); o,args=b.group(); out='None'
        if b.at('-') and b.at('>',1): b.i+=2; out=f'(Some {b.ty()})'
        fw=b.where(); o,bd=b.group()
        B=lambda x:'true' if x else 'false'
        its.append(f'IIFn (mkIMethod {lst([x[2] for x in a])} {v} false (mkSig {B(c)} {B(as_)} {B(u)} {B(ext)} {ident(i)} (mkGenerics {lst(fg)} {fw}) {recv(args)} false {out}) {body(bd)})')
    return f'(mkItemImpl {lst([a[2] for a in attrs])} false {"true" if un else "false"} (mkGenerics {lst(g)} {w}) {tr} {t} {lst(its)})'
def read(path):
    p=P(lex(open(path).read())); res={}
    while p.i<len(p.t):
        a=p.attrs(); s=p.i
        v=p.vis()
        if p.at('struct') or p.at('enum'):
            args=[x for x in a if x[0]==['pin_project']]
            rest=[x for x in a if x[0]!=['pin_project']]
            res['args']=ttrees(args[0][1] or []) if args else None
            i,t=item(p,rest,v); res['item']=t
        elif (p.at('impl') or p.at('unsafe')) and any(x[0]==['pinned_drop'] for x in a):
            res['impl']=impl(p,[x for x in a if x[0]!=['pinned_drop']])
        else:
            # skip: to ; or a brace group
            while True:
                if p.at('{'):
                    p.group()
                    if not p.at(';'): break
                elif p.at('(') or p.at('['): p.group()
                elif p.eat(';'): break
                else: p.next()
    return res
def read_expanded(path):
    toks=lex(open(path).read()); p=P(toks)
    # original item
    while True:
        s=p.i; p.attrs(); p.vis()
        if p.at('struct') or p.at('enum'): item(p,[],'VInherited'); break
        while not p.eat(';'):
            p.next()
    a=p.i
    while not p.at('const'):
        if p.at('{'): p.group()
        else: p.next()
    while not p.at('{'): p.next()
    p.group(); p.exp(';')
    ex=norm(words(toks[a:p.i]))
    im=None
    s=p.i
    while p.i<len(toks):
        s=p.i
        while not p.at('{'): p.next()
        p.group()
        w=words(toks[s:p.i])
        k=0
        while w[k]=='#': k=match(w,k+1)+1
        if w[k]=='impl': im=norm(w); break
    return ex,im
out=['''(** The model against the expansions recorded in /repo/tests/expand.

    For every test there the item is given to both macro stages of the model,
    and the printed output is compared with the recorded one, token by token
    (only trailing commas left out).  This file is generated from the tests; it checks the model,
    and no theorem depends on it. *)
From Coq Require Import String Ascii List Bool.
From Verif Require Import Base Syntax ModelArgs ModelUtils ModelAttribute ModelDerive ModelLints ModelPinnedDrop ModelPrint.
Import ListNotations.
Open Scope string_scope.
Open Scope list_scope.

Definition expanded (args : list ttree) (r : raw_item) : option string :=
  match parse_attribute args r with
  | Ok r => match strip_item (fun _ => true) r with
            | Some it => match parse_derive_marked it with Ok e => Some (text (print_expansion e)) | _ => None end
            | None => None
            end
  | _ => None
  end.
Definition expanded_impl (im : item_impl) : option string :=
  match pinned_drop_attribute [] im with
  | Ok (PdImpl im') => Some (text (print_item_impl im'))
  | _ => None
  end.
''']
if __name__=='__main__':
    n=0
    for f in sorted(glob.glob('/repo/tests/expand/*/*.rs')):
        if f.endswith('.expanded.rs'): continue
        r=read(f); ex,im=read_expanded(f[:-3]+'.expanded.rs')
        name=f.split('/expand/')[1][:-3].replace('/','_').replace('-','_')
        def wrap(s): return s
        out.append(f'(** /repo/tests/expand/{f.split("/expand/")[1]} *)')
        out.append(f'Example expand_{name} : expanded {r["args"]}\n  {r["item"]}\n  = Some {q(" ".join(ex))}.\nProof. vm_compute. reflexivity. Qed.')
        n+=1
        if 'impl' in r:
            out.append(f'Example expand_{name}_impl : expanded_impl\n  {r["impl"]}\n  = Some {q(" ".join(im))}.\nProof. vm_compute. reflexivity. Qed.'); n+=1
    open('/verif/rocq/theories/ConformExpand.v','w').write('\n'.join(out)+'\n')
    print(n)
