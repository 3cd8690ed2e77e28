(** The part of [syn]'s syntax tree that the macros read, and the fragment of
    Rust that they write. *)
From Coq Require Import String Ascii List Bool.
From Verif Require Import Base.
Import ListNotations.
Open Scope string_scope.
Open Scope list_scope.

(** ** Types, paths, bounds, const expressions

    [syn::Type], [syn::Path], [syn::PathArguments], [syn::GenericArgument],
    [syn::TypeParamBound], [syn::Expr], as far as they can occur in field types,
    generics and where clauses (/repo/pin-project-internal/src/utils.rs:278-354
    visits them, derive.rs:589-629 copies them).
    Lifetimes are their names including the quote, e.g. ["'a"].
    [TyPath (Some (t, n)) p] is [<t as p0::..::p(n-1)>::pn::..] ([QSelf] with
    [position = n]; [n = 0] is [<t>::p]).
    Simplifications: expressions are restricted to paths, literals, calls and
    macro calls (array lengths and const arguments); [impl Trait], [_] and
    verbatim types are left out (they cannot occur in fields); attributes on
    bare-fn arguments and ABI strings are left out. *)
Inductive ty : Type :=
| TyPath (q : option (ty * nat)) (p : path)
| TyRef (lt : option string) (m : bool) (t : ty)
| TyPtr (m : bool) (t : ty)
| TyTuple (l : list ty)
| TySlice (t : ty)
| TyArray (t : ty) (n : expr)
| TyFn (lts : list string) (args : list ty) (out : option ty)
| TyDyn (bs : list bound)
| TyParen (t : ty)
| TyNever
| TyMacro (mac : list ident) (ts : list ttree)
with path : Type :=
| Path (lead : bool) (segs : list seg)
with seg : Type :=
| Seg (i : ident) (a : gargs)
with gargs : Type :=
| GNone
| GAngle (turbofish : bool) (l : list garg)
| GParen (l : list ty) (out : option ty)
with garg : Type :=
| ALt (lt : string)
| ATy (t : ty)
| AConst (e : expr)
| AAssoc (i : ident) (t : ty)
with bound : Type :=
| BLt (lt : string)
| BTrait (maybe : bool) (lts : list string) (p : path)
with expr : Type :=
| EPath (q : option (ty * nat)) (p : path)
| ELit (s : string)
| ECall (f : expr) (args : list expr)
| EMacro (mac : list ident) (ts : list ttree).

(** ** Generics ([syn::Generics], [syn::GenericParam], [syn::WherePredicate]).
    Attributes on parameters are left out. *)
Inductive gparam : Type :=
| PLt (lt : string) (bounds : list string)
| PTy (i : ident) (bs : list bound) (dflt : option ty)
| PConst (i : ident) (t : ty) (dflt : option expr).

Inductive wpred : Type :=
| WLt (lt : string) (bounds : list string)
| WTy (lts : list string) (t : ty) (bs : list bound).

Record generics : Type := mkGenerics {
  g_params : list gparam;
  g_where : option (list wpred)
}.

(** ** Attributes ([syn::Attribute], [syn::Meta]).
    An attribute path is a list of identifiers with an optional leading [::]. *)
Inductive meta : Type :=
| MPath
| MList (d : delim) (ts : list ttree)
| MNameValue (ts : list ttree).

Record attr : Type := mkAttr {
  a_lead : bool;
  a_path : list ident;
  a_meta : meta
}.

(** [Path::is_ident] on an attribute path. *)
Definition path_is_ident (lead : bool) (p : list ident) (s : string) : bool :=
  match lead, p with
  | false, [i] => ident_is i s
  | _, _ => false
  end.
Definition attr_is (a : attr) (s : string) : bool :=
  path_is_ident (a_lead a) (a_path a) s.

(** ** Items ([syn::Visibility], [Field], [Fields], [Variant], [Item]).
    [VRestricted in_ p] is [pub(p)] or [pub(in p)].
    [v_disc] records only whether an explicit discriminant is present. *)
Inductive vis : Type :=
| VInherited
| VPub
| VRestricted (in_ : bool) (p : list ident).

Record field : Type := mkField {
  f_attrs : list attr;
  f_vis : vis;
  f_ident : option ident;
  f_ty : ty
}.

Inductive fields : Type :=
| FNamed (l : list field)
| FUnnamed (l : list field)
| FUnit.

Definition fields_list (fs : fields) : list field :=
  match fs with FNamed l | FUnnamed l => l | FUnit => [] end.

Record variant : Type := mkVariant {
  v_attrs : list attr;
  v_ident : ident;
  v_fields : fields;
  v_disc : bool
}.

Record item_struct : Type := mkStruct {
  s_attrs : list attr; s_vis : vis; s_ident : ident;
  s_generics : generics; s_fields : fields
}.
Record item_enum : Type := mkEnum {
  e_attrs : list attr; e_vis : vis; e_ident : ident;
  e_generics : generics; e_variants : list variant
}.
Inductive item : Type :=
| ItStruct (s : item_struct)
| ItEnum (e : item_enum)
| ItOther.

(** ** Generated method bodies

    Exactly the expression forms that occur in the [quote!] templates of
    /repo/pin-project-internal/src/pin_project/derive.rs:410-421, 494-508,
    550-558, 603-627, 670-687, 964-1012, 873-883.  Every argument of every
    generated call is a plain identifier, so expressions are stratified:
    atoms, right hand sides, statements, bodies. *)
Inductive atom : Type :=
| AVar (x : ident)                           (* x *)
| AMethod (x : ident) (m : ident)            (* x.m() *)
| ARefMutDeref (x : ident)                   (* &mut *x *)
| ACall (f : list ident) (args : list ident) (* f(x, ..) *)
| APath (p : list ident).                    (* path to a unit struct *)

(** [RLit p (Some Brace) fs]: [p { f: a, b, .. }] where [(None, AVar b)] is the
    shorthand [b]; [RLit p (Some Paren) fs]: [p(a, ..)]; [RLit p None []]: [p]. *)
Inductive rhs : Type :=
| RAtom (a : atom)
| RLit (p : list ident) (d : option delim) (fs : list (option ident * atom)).

(** Patterns: a binding, or [p { b, .. }] / [p(b, ..)] / [p]. *)
Inductive pat : Type :=
| PBind (x : ident)
| PLit (p : list ident) (d : option delim) (bs : list ident).

Inductive stmt : Type :=
| SLet (p : pat) (t : option ty) (r : rhs)
| SExpr (a : atom)
| SBlock (ss : list stmt).

Record arm : Type := mkArm { arm_pat : pat; arm_stmts : list stmt; arm_tail : rhs }.

Inductive body : Type :=
| BTail (ss : list stmt) (tail : option rhs)
| BMatch (ss : list stmt) (scrut : atom) (arms : list arm).

(** ** Generated items *)

(** Receiver of a method: [self: <ty>] or [&mut self]. *)
Inductive receiver : Type :=
| RecvTyped (t : ty)
| RecvRefMut.

Record method : Type := mkMethod {
  m_vis : vis;
  m_unsafe : bool;
  m_name : ident;
  m_lts : list string;          (* lifetime parameters of the method *)
  m_self : receiver;
  m_params : list (ident * ty); (* parameters after the receiver *)
  m_ret : option ty;
  m_body : body
}.

Record impl : Type := mkImpl {
  i_unsafe : bool;
  i_generics : generics;        (* parameters without defaults, where clause *)
  i_trait : option path;
  i_self : ty;
  i_methods : list method
}.

(** A field in [&this.f] / [&this.0]. *)
Inductive member : Type := MNamed (i : ident) | MIndex (n : nat).

(** [OAssert g t ms] is
    [#[forbid(unaligned_references, safe_packed_borrows)]
     fn __assert_not_repr_packed g (this: &t) where.. { let _ = &this.m; .. }]
    (derive.rs:1137-1142).  Lint attributes on generated items are not
    modelled except this one, which is part of the constructor's meaning. *)
Inductive oitem : Type :=
| OStruct (v : vis) (i : ident) (g : generics) (fs : fields)
| OEnum (v : vis) (i : ident) (g : generics) (vs : list variant)
| OImpl (im : impl)
| OTrait (i : ident)
| OAssert (g : generics) (t : ty) (ms : list member)
| OExternCrate (orig alias : ident).

(** Output of the derive: items next to the original one, and items inside
    [const _: () = { .. };] (derive.rs:66-108). *)
Record expansion : Type := mkExpansion {
  exposed : list oitem;
  scoped : list oitem
}.

(** Shorthands for building paths. *)
Definition seg1 (s : string) : seg := Seg (I s) GNone.
Definition spath (lead : bool) (l : list string) : path := Path lead (map seg1 l).
Definition ty_ident (i : ident) : ty := TyPath None (Path false [Seg i GNone]).
Definition ty_self : ty := ty_ident (I "Self").
