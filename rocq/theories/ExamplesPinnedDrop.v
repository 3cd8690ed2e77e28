(** Concrete [#[pinned_drop]] impls. *)
From Coq Require Import String Ascii List Bool.
From Verif Require Import Base Syntax ModelArgs ModelUtils ModelPinnedDrop SpecPinnedDrop Examples.
From Verif Require Import ProofsArgs ProofsPinnedDrop.
Import ListNotations.
Open Scope string_scope.
Open Scope list_scope.

(** [{ let this = self.project(); fn helper(x: u8) { x; } helper(this.a);
       drop_all!(self, Self); match this { y => { let self_ = y; __self_(self_, self) } } }] *)
Definition pd_body : list bstmt :=
  [YLet (QBind false (I "this")) None (Some (XMethod (var (I "self")) (I "project") [] []));
   YFn [] VInherited (mkSig false false false false (I "helper") (mkGenerics [] None)
     [FTyped [] (QBind false (I "x")) (tid "u8")] false None) [YExpr (var (I "x"))];
   YExpr (XCall (var (I "helper")) [XField (var (I "this")) (I "a")]);
   YExpr (XMacro [I "drop_all"] [TIdent (I "self"); TPunct "," false; TIdent (I "Self")]);
   YExpr (XMatch (var (I "this")) [(QBind false (I "y"),
     XBlock [YLet (QBind false (I "self_")) (Some ty_self) (Some (var (I "y")));
             YExpr (XCall (var (I "__self_")) [var (I "self_"); var (I "self")])])])].
Definition pin_self_ty : ty :=
  TyPath None (Path false [Seg (I "Pin") (GAngle false [ATy (TyRef None true ty_self)])]).
Definition pd_sig : fsig :=
  mkSig false false false false (I "drop") (mkGenerics [] None) [FRecv [] None true (Some pin_self_ty)] false None.
Definition pd_method (b : list bstmt) : imethod := mkIMethod [doc_attr] VInherited false pd_sig b.
(** [impl<T: Tr> PinnedDrop for Foo<T> where T: Send { .. }] *)
Definition pd_impl (items : list impl_item) : item_impl :=
  mkItemImpl [doc_attr] false false
    (mkGenerics [PTy (I "T") [bnd "Tr"] None] (Some [WTy [] (tid "T") [bnd "Send"]]))
    (Some (false, Path false [seg1 "PinnedDrop"]))
    (TyPath None (Path false [Seg (I "Foo") (GAngle false [ATy (tid "T")])])) items.
Definition pd_ex : item_impl := pd_impl [IIFn (pd_method pd_body)].

(** F8: a macro call between the braces of the impl. *)
Definition pd_macro_item : item_impl := pd_impl [IIFn (pd_method []); IIOther].
(** F8: [default fn drop]. *)
Definition pd_default : item_impl := pd_impl [IIFn (mkIMethod [] VInherited true pd_sig [])].
(** F12: [{ let __self = 1; use_it(self); }] *)
Definition pd_capture : item_impl :=
  pd_impl [IIFn (pd_method [YLet (QBind false (I "__self")) None (Some (XLit "1"));
                            YExpr (XCall (var (I "use_it")) [var (I "self")])])].

Lemma pd_ex_wf : impl_wf pd_ex /\ impl_wf pd_macro_item /\ impl_wf pd_default.
Proof.
  repeat split; try (intros m Hm a Ha; cbn in Hm);
    repeat match goal with H : _ \/ _ |- _ => destruct H as [H|H] | H : False |- _ => destruct H end;
    try discriminate; injection Hm as <-; cbn in Ha; destruct Ha as [<-|[]]; (split; [discriminate|intros E; elim E; reflexivity]).
Qed.
Lemma pd_never_panics_false : ~ (forall args im, impl_wf im -> forall m, pinned_drop_attribute args im <> Panic m).
Proof. intros H. eapply (H [] pd_macro_item); [apply pd_ex_wf|]. vm_compute. reflexivity. Qed.
Lemma pd_never_panics_false' : exists im m, impl_wf im /\ pinned_drop_attribute [] im = Panic m /\
  exists d, im_items im = [IIFn d].
Proof. exists pd_default. eexists. split; [apply pd_ex_wf|]. split; [vm_compute; reflexivity|]. eexists. reflexivity. Qed.

Lemma pd_capture_breaks : exists im im' m m' at' vis' sig' body' rest,
  pinned_drop_attribute [] im = Ok (PdImpl im') /\ im_items im = [IIFn m] /\
  ~ In (I "self") (flat_map binders_stmt (mt_block m)) /\
  im_items im' = [IIFn m'] /\ mt_block m' = YFn at' vis' sig' body' :: rest /\
  body_uses 1 [I "self"] [] (mt_block m) = [Free (I "use_it"); Bound (Local 0)] /\
  body_uses 1 (flat_map arg_vars (fs_inputs sig')) [(fs_ident sig', Item 0 (fs_ident sig'))] body' =
    [Free (I "use_it"); Bound (Local 1)].
Proof.
  exists pd_capture. do 8 eexists. split; [vm_compute; reflexivity|]. split; [reflexivity|].
  split; [vm_compute; intuition discriminate|]. split; [reflexivity|]. split; [reflexivity|].
  split; vm_compute; reflexivity.
Qed.

(** A body with an unsafe block and a closure. *)
Definition unsafe_body : list bstmt :=
  [YExpr (XUnary "unsafe" (XBlock [YExpr (XCall (var (I "f")) [])]));
   YExpr (XClosure [] (XUnary "*" (var (I "p"))))].
Definition unsafe_impl : item_impl := pd_impl [IIFn (pd_method unsafe_body)].

(** F11: [fn drop<'a>(self: Pin<&'a mut Self>) {}] *)
Definition pd_lifetime : item_impl :=
  pd_impl [IIFn (mkIMethod [] VInherited false
    (mkSig false false false false (I "drop") (mkGenerics [PLt "a" []] None)
       [FRecv [] None false (Some (TyPath None (Path false [Seg (I "Pin") (GAngle false [ATy (TyRef (Some "a") true ty_self)])])))]
       false None) [])].
