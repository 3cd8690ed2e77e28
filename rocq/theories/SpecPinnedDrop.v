(** Vocabulary for [#[pinned_drop]]. *)
From Coq Require Import String Ascii List Bool.
From Verif Require Import Base Syntax ModelUtils ModelPinnedDrop SpecArgs SpecDerive SpecExpand.
Import ListNotations.
Open Scope string_scope.
Open Scope list_scope.

(** ** C36 *)

(** [[path::]Pin<&['a] mut Self>] *)
Inductive pin_mut_self : ty -> Prop :=
| PMS lead segs turbofish lt :
    pin_mut_self (TyPath None (Path lead (segs ++ [Seg (I "Pin") (GAngle turbofish
      [ATy (TyRef lt true (TyPath None (Path false [Seg (I "Self") GNone])))])]))).

(** [fn drop([mut] self: [path::]Pin<&mut Self>) [-> ()] { .. }], not [unsafe].
    Attributes, visibility, [const], [async], ABI and generics of the method are
    not looked at. *)
Record good_drop (m : imethod) : Prop := {
  gd_name : fs_ident (mt_sig m) = I "drop";
  gd_safe : fs_unsafe (mt_sig m) = false;
  gd_self : exists at_ mu t r, fs_inputs (mt_sig m) = [FRecv at_ r mu (Some t)] /\ pin_mut_self t;
  gd_ret : fs_out (mt_sig m) = None \/ fs_out (mt_sig m) = Some (TyTuple [])
}.

(** [impl [!]PinnedDrop for <path type> { <items> }] with at least one item, not
    [unsafe], not marked a second time. *)
Record good_header (im : item_impl) : Prop := {
  gh_attrs : forall x, In x (im_attrs im) -> ~ attr_named x "pinned_drop";
  gh_trait : exists neg, im_trait im = Some (neg, Path false [Seg (I "PinnedDrop") GNone]);
  gh_safe : im_unsafe im = false;
  gh_self : exists q p, im_self im = TyPath q p;
  gh_items : im_items im <> []
}.

(** Rust's own grammar: a type path has at least one segment, and a receiver
    with [&] has no type annotation. *)
Definition receiver_wf (a : fnarg) : Prop :=
  match a with
  | FRecv _ r _ c => (forall q lead, c <> Some (TyPath q (Path lead []))) /\ (r <> None -> c = None)
  | FTyped _ _ _ => True
  end.
Definition impl_wf (im : item_impl) : Prop :=
  forall m, In (IIFn m) (im_items im) -> forall a, In a (fs_inputs (mt_sig m)) -> receiver_wf a.

(** ** C24 and C44: which binding a name refers to

    Labels of bindings: items by the depth of the block they are in, local
    variables by the order in which they are introduced. *)
Inductive label : Type := Item (depth : nat) (x : ident) | Local (n : nat).
Definition scope := list (ident * label).
Fixpoint lookup (x : ident) (e : scope) : option label :=
  match e with
  | [] => None
  | (y, l) :: r => if ident_eqb y x then Some l else lookup x r
  end.
(** Inside a nested function the local variables of the surrounding one are not visible. *)
Definition items_only (e : scope) : scope :=
  filter (fun p => match snd p with Item _ _ => true | Local _ => false end) e.

(** What a one-segment path in an expression refers to: a binding, or something
    from outside. *)
Inductive use : Type := Bound (l : label) | Free (x : ident).
Definition use_of (x : ident) (e : scope) : use :=
  match lookup x e with Some l => Bound l | None => Free x end.
Definition path_use (q : option (ty * nat)) (p : path) (e : scope) : list use :=
  match q, p with None, Path false [Seg x _] => [use_of x e] | _, _ => [] end.

(** Variables bound by a pattern, in order. *)
Fixpoint pat_vars (p : bpat) : list ident :=
  match p with
  | QWild | QPath _ _ | QMacro _ _ => []
  | QBind _ x => [x]
  | QStruct _ fs => flat_map (fun f => pat_vars (snd f)) fs
  | QTupleStruct _ l | QTuple l => flat_map pat_vars l
  end.
(** [bind_vars n xs e]: [e] with [xs] as the local variables [n], [n+1], .. *)
Fixpoint bind_vars (n : nat) (xs : list ident) (e : scope) : scope :=
  match xs with
  | [] => e
  | x :: r => bind_vars (S n) r ((x, Local n) :: e)
  end.
Definition arg_vars (a : fnarg) : list ident :=
  match a with FRecv _ _ _ _ => [I "self"] | FTyped _ p _ => pat_vars p end.

(** The items of a block; they are visible in the whole block. *)
Definition block_items (d : nat) (l : list bstmt) : scope :=
  flat_map (fun s => match s with
                     | YFn _ _ sg _ => [(fs_ident sg, Item d (fs_ident sg))]
                     | YItem x _ => [(x, Item d x)]
                     | YMacroRules _ _ | YLet _ _ _ | YExpr _ => []
                     end) l.

Definition stmt_vars (s : bstmt) : list ident :=
  match s with YLet p _ _ => pat_vars p | _ => [] end.

(** All uses of names in an expression or block, in order.  [n] is the number of
    local variables introduced so far on the way, [d] the depth of blocks.
    A [let] binds in the statements after it.  Macro invocations are not looked
    into. *)
Fixpoint uses (n d : nat) (e : scope) (x : bexpr) : list use :=
  match x with
  | XPath q p => path_use q p e
  | XLit _ | XMacro _ _ => []
  | XCall f l => uses n d e f ++ flat_map (uses n d e) l
  | XMethod f _ _ l => uses n d e f ++ flat_map (uses n d e) l
  | XField f _ | XUnary _ f | XCast f _ => uses n d e f
  | XStruct _ fs base =>
    flat_map (fun f => uses n d e (snd f)) fs ++ match base with Some b => uses n d e b | None => [] end
  | XBinary _ a b => uses n d e a ++ uses n d e b
  | XBlock l =>
    (fix go (n : nat) (e : scope) (l : list bstmt) : list use :=
       match l with
       | [] => []
       | s :: r => uses_stmt n (S d) e s ++ go (n + length (stmt_vars s)) (bind_vars n (stmt_vars s) e) r
       end) n (block_items (S d) l ++ e) l
  | XMatch f arms =>
    uses n d e f ++
    flat_map (fun a => uses (n + length (pat_vars (fst a))) d (bind_vars n (pat_vars (fst a)) e) (snd a)) arms
  | XClosure ps f =>
    let xs := flat_map (fun p => pat_vars (fst p)) ps in
    uses (n + length xs) d (bind_vars n xs e) f
  end
with uses_stmt (n d : nat) (e : scope) (s : bstmt) : list use :=
  match s with
  | YLet _ _ (Some x) => uses n d e x
  | YLet _ _ None => []
  | YExpr x => uses n d e x
  | YFn _ _ sg b =>
    let xs := flat_map arg_vars (fs_inputs sg) in
    (fix go (n : nat) (e : scope) (l : list bstmt) : list use :=
       match l with
       | [] => []
       | s :: r => uses_stmt n (S d) e s ++ go (n + length (stmt_vars s)) (bind_vars n (stmt_vars s) e) r
       end) (length xs) (block_items (S d) b ++ bind_vars 0 xs (items_only e)) b
  | YMacroRules _ _ | YItem _ _ => []
  end.
(** The statements of a block at depth [d] whose items are already in scope. *)
Definition uses_stmts (d : nat) : nat -> scope -> list bstmt -> list use :=
  fix go (n : nat) (e : scope) (l : list bstmt) : list use :=
    match l with
    | [] => []
    | s :: r => uses_stmt n d e s ++ go (n + length (stmt_vars s)) (bind_vars n (stmt_vars s) e) r
    end.
(** The body of a function with parameters [xs], at depth [d], where [e] is in scope. *)
Definition body_uses (d : nat) (xs : list ident) (e : scope) (l : list bstmt) : list use :=
  uses_stmts d (length xs) (block_items d l ++ bind_vars 0 xs (items_only e)) l.

(** Names mentioned anywhere as a variable, an item name or a one-segment path. *)
Fixpoint mentions (x : bexpr) : list ident :=
  match x with
  | XPath q p => match q, p with None, Path false [Seg i _] => [i] | _, _ => [] end
  | XLit _ | XMacro _ _ => []
  | XCall f l => mentions f ++ flat_map mentions l
  | XMethod f _ _ l => mentions f ++ flat_map mentions l
  | XField f _ | XUnary _ f | XCast f _ => mentions f
  | XStruct _ fs base =>
    flat_map (fun f => mentions (snd f)) fs ++ match base with Some b => mentions b | None => [] end
  | XBinary _ a b => mentions a ++ mentions b
  | XBlock l => flat_map mentions_stmt l
  | XMatch f arms => mentions f ++ flat_map (fun a => pat_vars (fst a) ++ mentions (snd a)) arms
  | XClosure ps f => flat_map (fun p => pat_vars (fst p)) ps ++ mentions f
  end
with mentions_stmt (s : bstmt) : list ident :=
  match s with
  | YLet p _ e => pat_vars p ++ match e with Some x => mentions x | None => [] end
  | YExpr x => mentions x
  | YFn _ _ sg b => fs_ident sg :: flat_map arg_vars (fs_inputs sg) ++ flat_map mentions_stmt b
  | YMacroRules _ _ => []
  | YItem x _ => [x]
  end.

(** Rust does not allow [self] as the name of a variable or an item. *)
Fixpoint binders (x : bexpr) : list ident :=
  match x with
  | XPath _ _ | XLit _ | XMacro _ _ => []
  | XCall f l => binders f ++ flat_map binders l
  | XMethod f _ _ l => binders f ++ flat_map binders l
  | XField f _ | XUnary _ f | XCast f _ => binders f
  | XStruct _ fs base =>
    flat_map (fun f => binders (snd f)) fs ++ match base with Some b => binders b | None => [] end
  | XBinary _ a b => binders a ++ binders b
  | XBlock l => flat_map binders_stmt l
  | XMatch f arms => binders f ++ flat_map (fun a => pat_vars (fst a) ++ binders (snd a)) arms
  | XClosure ps f => flat_map (fun p => pat_vars (fst p)) ps ++ binders f
  end
with binders_stmt (s : bstmt) : list ident :=
  match s with
  | YLet p _ e => pat_vars p ++ match e with Some x => binders x | None => [] end
  | YExpr x => binders x
  | YFn _ _ sg b => [fs_ident sg]
  | YMacroRules _ _ => []
  | YItem x _ => [x]
  end.

(** ** C37 *)

(** [im'] is the expansion of [im], whose only item is the method [m], for the
    self type [self].  What [replace_ty], [replace_generics] and [replace_block]
    do is the subject of C38, C39 and C44. *)
Record moved (self : type_path) (im : item_impl) (m : imethod) (im' : item_impl) : Prop := {
  mv_attrs : im_attrs im' = im_attrs im ++ [mkAttr false [I "doc"] (MList Paren [TIdent (I "hidden")])];
  mv_generics : im_generics im' = im_generics im;
  mv_self : im_self im' = im_self im;
  mv_safe : im_unsafe im' = false;
  mv_trait : exists neg tp, im_trait im = Some (neg, tp) /\
    im_trait im' = Some (neg, Path true [seg1 "pin_project"; seg1 "__private"; seg1 "PinnedDrop"]);
  mv_method : exists m' at_ r mu t,
    fs_inputs (mt_sig m) = [FRecv at_ r mu (Some t)] /\
    im_items im' = [IIFn m'] /\
    mt_attrs m' = mt_attrs m /\ mt_vis m' = mt_vis m /\
    (* the outer method: [unsafe fn drop(self: Pin<&mut Self>)] *)
    fs_ident (mt_sig m') = I "drop" /\ fs_unsafe (mt_sig m') = true /\
    fs_inputs (mt_sig m') = [FRecv at_ r false (Some t)] /\ fs_out (mt_sig m') = fs_out (mt_sig m) /\
    fs_generics (mt_sig m') = fs_generics (mt_sig m) /\
    (* its body: the inner function, and one call *)
    exists at' vis' sig' body',
      mt_block m' = [YFn at' vis' sig' body';
                     YExpr (XCall (XPath None (Path false [Seg (I "__drop_inner") GNone]))
                                  [XPath None (Path false [Seg (I "self") GNone])])] /\
      (* [fn __drop_inner<..>([mut] __self: Pin<&mut Type>) { fn __drop_inner() {} <body> }] *)
      fs_ident sig' = I "__drop_inner" /\ fs_unsafe sig' = false /\
      fs_generics sig' = replace_generics self (im_generics im) /\
      (exists at2, fs_inputs sig' = [FTyped at2 (QBind mu (I "__self")) (replace_ty self t)]) /\
      exists dummy, body' = dummy :: replace_block self (mt_block m) /\
        exists dsig, dummy = YFn [] VInherited dsig [] /\ fs_ident dsig = I "__drop_inner" /\ fs_inputs dsig = []
}.

(** ** C40 *)

(** An impl of the private trait for the same type whose method has an empty
    body: [impl<..> ::pin_project::__private::PinnedDrop for T where .. {
    unsafe fn drop(self: ::pin_project::__private::Pin<&mut Self>) {} }]. *)
Definition lifetime_param (p : gparam) : bool := match p with PLt _ _ => true | _ => false end.
Definition without_default (p : gparam) : gparam :=
  match p with PLt l bs => PLt l bs | PTy i bs _ => PTy i bs None | PConst i t _ => PConst i t None end.
Record empty_impl_for (im d : item_impl) : Prop := {
  ei_plain : im_attrs d = [] /\ im_default d = false /\ im_unsafe d = false;
  ei_self : im_self d = im_self im;
  ei_trait : im_trait d = Some (false, Path true [seg1 "pin_project"; seg1 "__private"; seg1 "PinnedDrop"]);
  ei_where : g_where (im_generics d) = g_where (im_generics im);
  (* the same parameters, lifetimes first, without defaults *)
  ei_params : g_params (im_generics d) = map without_default
    (filter lifetime_param (g_params (im_generics im)) ++ filter (fun p => negb (lifetime_param p)) (g_params (im_generics im)));
  ei_method : exists m, im_items d = [IIFn m] /\ mt_attrs m = [] /\ mt_vis m = VInherited /\ mt_default m = false /\ mt_block m = [] /\
    fs_ident (mt_sig m) = I "drop" /\ fs_unsafe (mt_sig m) = true /\ fs_const (mt_sig m) = false /\ fs_async (mt_sig m) = false /\
    fs_abi (mt_sig m) = false /\ fs_variadic (mt_sig m) = false /\ fs_generics (mt_sig m) = mkGenerics [] None /\ fs_out (mt_sig m) = None /\
    fs_inputs (mt_sig m) = [FRecv [] None false (Some (TyPath None (Path true [seg1 "pin_project"; seg1 "__private";
      Seg (I "Pin") (GAngle false [ATy (TyRef None true (TyPath None (Path false [seg1 "Self"])))])])))]
}.
