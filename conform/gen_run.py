"""Writes ConformRun.v: the scopes of /repo/tests/drop_order.rs, run in the model."""
import os, re, sys
sys.path.insert(0, os.path.dirname(os.path.abspath(__file__)))
from rs import *
F='/repo/tests/drop_order.rs'
HEAD='''(** The model against the run-time test of the order of destructors.

    Each scope of /repo/tests/drop_order.rs makes values [D(&c, n)], whose
    destructors check that they run in the order 1, 2, ..  A scope is run in the
    model: the generated [project_replace] is called, its result is dropped, then
    the pinned value; the destructors must run in that order.
    This file is generated from the test (conform/gen_run.py); it checks the
    model, and no theorem depends on it. *)
From Coq Require Import String Ascii List Bool.
From Verif Require Import Base Syntax ModelArgs ModelUtils ModelAttribute ModelDerive ModelPipeline ModelRun SpecRun.
Import ListNotations.
Open Scope string_scope.
Open Scope list_scope.

Definition no_item : item := ItStruct (mkStruct [] VInherited (I "") (mkGenerics [] None) FUnit).
(** The item that the derive gets. *)
Definition derive_input (args : list ttree) (r : raw_item) : item :=
  match parse_attribute args r with
  | Ok r => match strip_item (fun _ => true) r with Some it => it | None => no_item end
  | _ => no_item
  end.
Definition world_for (args : list ttree) (r : raw_item) (leaky : bool) : world :=
  let it := derive_input args r in
  mkWorld it (match parse_derive it with Ok e => e | _ => mkExpansion [] [] end) (fun _ => false) (fun _ => false) (fun _ => false) leaky.
(** [{ let _x = u; }] *)
Definition scope_new (w : world) (u : uval) : list nat := destroyed (s_trace (drop_self w (start u))).
(** [{ let mut x = u; let y = Pin::new(&mut x); let _z = y.project_replace(r); }] *)
Definition scope_replace (w : world) (u r : uval) : list nat :=
  match call_method w "project_replace" (RPin true PlSelf) [RUser r] (start u) with
  | Some (Some z, s) => destroyed (s_trace (drop_self w (drop_rv w (drop_user w) z s)))
  | _ => []
  end.
'''
def uval(s):
    m=re.match(r'(\w+)(?:::(\w+))?\s*[({]',s)
    ids=[int(x) for x in re.findall(r'D\(&c, (\d+)\)',s)]
    return m.group(1),f'(mkUval {"None" if not m.group(2) else f"(Some {ident(m.group(2))})"} {lst([str(x) for x in ids])})',ids
if __name__=='__main__':
    src=open(F).read(); toks=lex(src); p=P(toks); out=[HEAD]
    line=lambda off: src.count('\n',0,off)+1
    while p.i<len(toks):
        if not (p.at('#') and p.at('[',1)): p.i+=1; continue
        at=p.attrs(); v=p.vis()
        if at[0][0]!=['pin_project']: continue
        l=line(p.peek()[3]); i,t=item(p,at[1:],v)
        out.append(f'(** /repo/tests/drop_order.rs:{l} *)\nDefinition w_{i} (leaky : bool) : world := world_for {ttrees(at[0][1] or [])}\n  {t} leaky.')
    n=0
    for m in re.finditer(r'^    \{\n(.*?)^    \}',src,re.M|re.S):
        b=m.group(1); l=line(m.start()); lets=re.findall(r'let (?:mut )?(_?[xz]) = (.*);\n',b)
        i,u,ids=uval(lets[0][1])
        if len(lets)==1: e=f'scope_new (w_{i} leaky) {u}'
        else:
            _,r,more=uval(lets[1][1].split('project_replace(',1)[1]); ids=ids+more; e=f'scope_replace (w_{i} leaky) {u} {r}'
        assert sorted(ids)==list(range(1,len(ids)+1))
        out.append(f'(** /repo/tests/drop_order.rs:{l} *)\nExample drop_order_{l} : forall leaky, {e} = {lst([str(x) for x in range(1,len(ids)+1)])}.\nProof. intros [|]; vm_compute; reflexivity. Qed.'); n+=1
    open('/verif/rocq/theories/ConformRun.v','w').write('\n'.join(out)+'\n'); print(n)
