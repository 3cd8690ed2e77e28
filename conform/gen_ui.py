"""Writes ConformUi.v: the model's verdicts on the items of the test suite."""
import os, re, sys
sys.path.insert(0, os.path.dirname(os.path.abspath(__file__)))
from rs import *
import gen_expand as G
ROOT='/repo/tests/'
def errors(path):
    """(line, message) of the macro's own errors: the ones without a code"""
    out=[]
    s=open(path).read()
    for m in re.finditer(r'^error: (.*)\n(?:\s*(?!-->).*\n)*?\s*--> [^:]*:(\d+):',s,re.M): out.append((int(m.group(2)),m.group(1)))
    return out
BODY='(__opaque__)'
def body(ts):
    try: return G.stmts(ts)
    except Exception: return None
def scan(path,has_err):
    src=open(path).read(); toks=lex(src)
    def line(i): return src.count('\n',0,toks[i][3])+1
    errs=errors(path[:-3]+'.stderr') if has_err else []
    p=P(toks); out=[]
    while p.i<len(toks):
        if not (p.at('#') and p.at('[',1)): p.i+=1; continue
        a=p.i
        at=p.attrs(); v=p.vis()
        names=[x[0] for x in at]
        mine=[k for k,n in enumerate(names) if n in (['pin_project'],['pinned_drop'],['crate','pin_project'],['pin_project','pin_project'],['pin_project','pinned_drop'])]
        if not mine: continue
        if '$' in [t[1] for t in toks[a:p.i]]: continue
        k=mine[0]; which=names[k][-1]; args=ttrees(at[k][1] or []); rest=at[:k]+at[k+1:]
        if any(n[0] in ('cfg','cfg_attr') for n in names): continue
        try:
            if which=='pin_project':
                if p.at('struct') or p.at('enum'):
                    i,t=item(p,rest,v)
                    if '$' in [x[1] for x in toks[a:p.i]] or 'cfg' in [x[1] for x in toks[a:p.i]]: continue
                else:
                    i=p.peek(1)[1]; t=f'(mkRItem {rattrs(rest)} ROther)'
                    while not p.at('{'): p.next()
                    p.group()
                kind='item'
            else:
                if not (p.at('impl') or p.at('unsafe')): continue
                s=p.i
                t=G.impl(p,rest,lambda ts: body(ts) or '[]') ; kind='impl'; i='impl'
        except Exception as ex:
            print('skipped',path,line(a),repr(ex)[:100]); p.i=a+1
            p.attrs() if False else None
            p.i=a+1; p.next(); continue
        b=line(p.i-1); l0=line(a)
        es=[m for l,m in errs if l0<=l<=b]
        out.append((l0,kind,args,t,es[0] if es else None,len(es)))
    return out
FILES=[('ui/pin_project/invalid.rs',True),('ui/pin_project/packed.rs',True),('ui/pin_project/packed-enum.rs',True),('ui/pin_project/packed-name-value.rs',True),('ui/pinned_drop/invalid.rs',True),
 ('pin_project.rs',False),('pinned_drop.rs',False),('drop_order.rs',False),('proper_unpin.rs',False),('repr_packed.rs',False),('unsafe_unpin.rs',False),('include/basic-safe-part.rs',False),('run-pass/private_in_public-enum.rs',False)]
HEAD='''(** The model against the items of the test suite.

    The items of /repo/tests/ui are given to the model and its verdict is
    compared with the message recorded in the [.stderr] file; the items of the
    run-time tests must be accepted.  Bodies of [drop] methods are left out here.
    This file is generated from the tests (conform/gen_ui.py); it checks the
    model, and no theorem depends on it. *)
From Coq Require Import String Ascii List Bool.
From Verif Require Import Base Syntax ModelArgs ModelUtils ModelAttribute ModelDerive ModelPipeline ModelPinnedDrop.
Import ListNotations.
Open Scope string_scope.
Open Scope list_scope.

Definition verdict (args : list ttree) (r : raw_item) : option string :=
  match pipeline (fun _ => true) (fun r => r) args r with
  | Ok (Some _) => None
  | Ok None => Some "configured out"
  | Err m => Some m
  | Panic m => Some (String.append "panic: " m)
  end.
Definition verdict_impl (args : list ttree) (im : item_impl) : option string :=
  match pinned_drop_attribute args im with
  | Ok (PdImpl _) => None
  | Ok (PdError m _) => Some m
  | Err m => Some m
  | Panic m => Some (String.append "panic: " m)
  end.
'''
if __name__=='__main__':
    out=[HEAD]; tot=0
    for f,e in FILES:
        r=scan(ROOT+f,e); print(f,len(r),sum(1 for x in r if x[4]))
        for l,kind,args,t,m,n in r:
            nm='ui_'+re.sub(r'\W','_',f[:-3].replace('ui/',''))+f'_{l}'
            ex='None' if m is None else f'Some {q(m)}'
            out.append(f'(** /repo/tests/{f}:{l} *)\nExample {nm} : {"verdict" if kind=="item" else "verdict_impl"} {args}\n  {t}\n  = {ex}.\nProof. vm_compute. reflexivity. Qed.'); tot+=1
    open('/verif/rocq/theories/ConformUi.v','w').write('\n'.join(out)+'\n'); print(tot)
