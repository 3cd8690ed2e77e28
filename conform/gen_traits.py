"""Writes ConformTests.v: the items and the assertions of /repo/tests/proper_unpin.rs and
/repo/tests/unsafe_unpin.rs as terms of the model, and the items of /repo/tests/ui that
conflict with an impl of the user.  ConformTraits.v and ConformConflicts.v prove what the
tests assert."""
import os, sys
sys.path.insert(0, os.path.dirname(os.path.abspath(__file__)))
import glob, re
import rs
from rs import *
COND={'any()':0,'not(any())':1}
def cond(ts): return COND[''.join(x[1] for x in ts)]
def rattr(a):
    ids,inner,s=a
    if ids==['cfg']: return f'RCfg {cond(inner)}'
    if ids==['cfg_attr']:
        k=next(i for i,x in enumerate(inner) if x[1]==',')
        return f'RCfgAttr {cond(inner[:k])} [{rattr(attr(inner[k+1:]))}]'
    return f'RAttr {s}'
rs.rattrs=lambda l: lst([rattr(a) for a in l])
HEAD='''(** The items, impls and assertions of /repo/tests/proper_unpin.rs and
    /repo/tests/unsafe_unpin.rs, and the items of /repo/tests/ui that conflict with an
    impl of the user.  Generated from the tests (conform/gen_traits.py).
    [RCfg 0] is [any()], [RCfg 1] is [not(any())].  [Foo<'_>] in an impl header stands
    for a fresh lifetime parameter of the impl, written [PLt "'_"]. *)
From Coq Require Import String Ascii List Bool.
From Verif Require Import Base Syntax ModelArgs ModelUtils ModelAttribute ModelDerive ModelPinnedDrop.
Import ListNotations.
Open Scope string_scope.
Open Scope list_scope.

(** An item with its module and the arguments of [#[pin_project]]. *)
Record test_item : Type := mkTest { te_mod : string; te_args : list ttree; te_raw : raw_item }.
(** An assertion: the line, the module, the type, and whether it is [Unpin]. *)
Record test_assert : Type := mkAssert { ta_line : string; ta_mod : string; ta_ty : ty; ta_unpin : bool }.
(** An item of /repo/tests/ui for which the compiler reports E0119, with the impls that
    the user wrote for it; [true] marks those with [#[pinned_drop]]. *)
Record ui_case : Type := mkUi { ui_line : string; ui_args : list ttree; ui_raw : raw_item; ui_impls : list (bool * item_impl) }.
'''
items=[]; plain=[]; impls=[]; asserts=[]
def active(a):
    """the arguments of #[pin_project], if it is active"""
    for ids,inner,_ in a:
        if ids==['pin_project']: return inner or []
        if ids==['cfg_attr']:
            k=next(i for i,x in enumerate(inner) if x[1]==',')
            if cond(inner[:k])==1:
                r=active([attr(inner[k+1:])])
                if r is not None: return r
    return None
def walk(ts,mod,src,f):
    p=P(ts)
    line=lambda t: f'{f}:{src.count(chr(10),0,t[3])+1}'
    while p.i<len(ts):
        if p.at('#') and p.at('!',1): p.i+=2; p.group(); continue
        a=p.attrs(); s=p.peek(); v=p.vis()
        if p.at('mod') or p.at('fn'):
            p.next(); m=p.ident()
            if p.eat(';'): continue
            if p.at('('): p.group(); m=mod
            walk(p.group()[1],m,src,f)
        elif p.at('struct') or p.at('enum'):
            args=active(a); rest=[x for x in a if x[0] not in (['pin_project'],['cfg_attr'])]
            i,t=item(p,rest,v)
            if args is None: plain.append(mod+'::'+i)
            else: items.append((line(s),f'mkTest {q(mod)} {ttrees(args)}\n  {t}'))
        elif p.at('unsafe'):
            p.next(); p.exp('impl'); g=p.generics(); t=p.ty(); p.exp('for'); k=p.i; ty=p.ty()
            if any(x[1]=="'_" for x in ts[k:p.i]): g=["PLt \"'_\" []"]+g
            assert t.startswith('(TyPath None '); w=p.where(); p.group()
            impls.append((line(s),f'({q(mod)}, mkImpl true (mkGenerics {lst(g)} {w}) (Some {t[len("(TyPath None "):-1]}) {ty} [])'))
        elif p.at('assert_unpin') or p.at('assert_not_unpin'):
            y=p.next()[1]=='assert_unpin'; p.exp('!'); o,inner=p.group(); p.exp(';')
            asserts.append(f'mkAssert {q(line(s))} {q(mod)} {P(inner).ty()} {"true" if y else "false"}')
        else:
            while not p.eat(';'): p.next()
for f in ('proper_unpin','unsafe_unpin'):
    src=open(f'/repo/tests/{f}.rs').read(); walk(lex(src),f,src,f+'.rs')
# tests/ui: items with their impls, for which the compiler reports E0119 (conflicting impls)
import gen_expand as G
ui=[]
def walk_ui(path):
    src=open(path).read(); err=open(path[:-3]+'.stderr').read(); f=path.split('/tests/')[1]; ts=lex(src); p=P(ts)
    items={}
    codes={}
    for m in re.finditer(r'^error\[E0119\]: .* for type `(\w+)',err,re.M): codes[m.group(1)]='E0119'
    while p.i<len(ts):
        a=p.attrs(); s=p.peek(); v=p.vis()
        if p.at('struct') or p.at('enum'):
            args=active(a)
            i,t=item(p,[x for x in a if x[0]!=['pin_project']],v)
            if args is not None: items[i]=dict(line=f'{f}:{src.count(chr(10),0,s[3])+1}',args=ttrees(args),item=t,impls=[])
        elif p.at('impl') or p.at('unsafe'):
            k=p.i; pd=any(x[0]==['pinned_drop'] for x in a)
            t=G.impl(p,[])
            n=[x[1] for x in ts[k:p.i]]; n=n[n.index('for')+1]
            if n in items: items[n]['impls'].append(f'({"true" if pd else "false"}, {t})')
        elif p.at('fn'):
            while not p.at('{'): p.next()
            p.group()
        else:
            while not p.eat(';'): p.next()
    for i,x in items.items():
        if codes.get(i)=='E0119': ui.append(f'mkUi {q(x["line"])} {x["args"]}\n  {x["item"]}\n  {lst(x["impls"])}')
for path in sorted(glob.glob('/repo/tests/ui/*/conflict-*.rs')+glob.glob('/repo/tests/ui/*/impl-unsafe-unpin.rs')+glob.glob('/repo/tests/ui/*/pinned-drop-no-attr-arg.rs')): walk_ui(path)
sep=';\n   '
out=[HEAD,
 'Definition test_items : list test_item :=\n  ['+sep.join(f'(* {l} *) {t}' for l,t in items)+'].',
 'Definition test_impls : list (string * impl) :=\n  ['+sep.join(f'(* {l} *) {t}' for l,t in impls)+'].',
 '(** Structs without [#[pin_project]]. *)\nDefinition test_plain : list string := '+lst([q(x) for x in plain])+'.',
 'Definition test_asserts : list test_assert :=\n  ['+sep.join(asserts)+'].']
out.append('Definition ui_cases : list ui_case :=\n  ['+sep.join(ui)+'].')
open('/verif/rocq/theories/ConformTests.v','w').write('\n'.join(out)+'\n')
print(len(items),len(impls),plain,len(asserts),len(ui))
