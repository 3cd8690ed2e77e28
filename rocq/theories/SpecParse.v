(** What Rust's grammar asks of types and paths beyond their shape (the
    reference: Types, Paths), for code that a macro puts together from parts. *)
From Coq Require Import String List Bool.
From Verif Require Import Base Syntax ModelPinnedDrop.
Import ListNotations.
Open Scope string_scope.
Open Scope list_scope.

(** [TypeNoBounds]: [dyn A + B] has to stand in parentheses behind [&], [*const],
    [as] and the arrow of a function type. *)
Definition no_plus (t : ty) : bool := match t with TyDyn (_ :: _ :: _) => false | _ => true end.
Definition opt_ok {A} (f : A -> bool) (o : option A) : bool := match o with Some x => f x | None => true end.

(** [PathInExpression]: in an expression or a pattern generic arguments are
    written [::<..>], never [<..>] or [(..) -> ..]. *)
Definition value_args (s : seg) : bool :=
  match s with
  | Seg _ GNone => true
  | Seg _ (GAngle turbofish _) => turbofish
  | Seg _ (GParen _ _) => false
  end.
(** The segments that are written in [<t as ..>] are those of a type. *)
Definition behind (q : option (ty * nat)) (l : list seg) : list seg :=
  match q with Some (_, n) => skipn n l | None => l end.
(** [QualifiedPathInType]: [<t>::a::b], where nothing stands before the path,
    goes on with [::]; in [<t as p>::a], counted from [p], a segment follows. *)
Definition qualified (q : option (ty * nat)) (p : path) : bool :=
  match q, p with
  | None, _ => true
  | Some (_, 0), Path lead segs => lead && negb (match segs with [] => true | _ => false end)
  | Some (_, n), Path _ segs => Nat.ltb n (length segs)
  end.
Definition value_path (q : option (ty * nat)) (p : path) : bool :=
  match p with Path _ segs => forallb value_args (behind q segs) end.

Fixpoint parses_ty (t : ty) : bool :=
  match t with
  | TyPath q p => match q with Some (t', _) => parses_ty t' | None => true end && parses_path p && qualified q p
  | TyRef _ _ t' | TyPtr _ t' => parses_ty t' && no_plus t'
  | TyTuple l => forallb parses_ty l
  | TySlice t' | TyParen t' => parses_ty t'
  | TyArray t' e => parses_ty t' && parses_expr e
  | TyFn _ l o => forallb parses_ty l && match o with Some t' => parses_ty t' && no_plus t' | None => true end
  | TyDyn bs => forallb parses_bound bs
  | TyNever | TyMacro _ _ => true
  end
with parses_path (p : path) : bool :=
  match p with Path _ segs => forallb parses_seg segs end
with parses_seg (s : seg) : bool :=
  match s with Seg _ a => parses_gargs a end
with parses_gargs (a : gargs) : bool :=
  match a with
  | GNone => true
  | GAngle _ l => forallb parses_garg l
  | GParen l o => forallb parses_ty l && match o with Some t' => parses_ty t' && no_plus t' | None => true end
  end
with parses_garg (a : garg) : bool :=
  match a with
  | ALt _ => true
  | ATy t | AAssoc _ t => parses_ty t
  | AConst e => parses_expr e
  end
with parses_bound (b : bound) : bool :=
  match b with BLt _ => true | BTrait _ _ p => parses_path p end
with parses_expr (e : expr) : bool :=
  match e with
  | EPath q p => match q with Some (t', _) => parses_ty t' | None => true end && parses_path p && value_path q p && qualified q p
  | ELit _ | EMacro _ _ => true
  | ECall f l => parses_expr f && forallb parses_expr l
  end.

Definition parses_param (p : gparam) : bool :=
  match p with
  | PLt _ _ => true
  | PTy _ bs d => forallb parses_bound bs && opt_ok parses_ty d
  | PConst _ t d => parses_ty t && opt_ok parses_expr d
  end.
Definition parses_wpred (w : wpred) : bool :=
  match w with WLt _ _ => true | WTy _ t bs => parses_ty t && forallb parses_bound bs end.
Definition parses_generics (g : generics) : bool :=
  forallb parses_param (g_params g) && opt_ok (forallb parses_wpred) (g_where g).

(** ** Generated items *)
Definition parses_fields (fs : fields) : bool := forallb (fun f => parses_ty (f_ty f)) (fields_list fs).
Fixpoint parses_stmt (s : stmt) : bool :=
  match s with
  | SLet _ t _ => opt_ok parses_ty t
  | SExpr _ => true
  | SBlock l => forallb parses_stmt l
  end.
Definition parses_body (b : body) : bool :=
  match b with
  | BTail ss _ => forallb parses_stmt ss
  | BMatch ss _ arms => forallb parses_stmt ss && forallb (fun a => forallb parses_stmt (arm_stmts a)) arms
  end.
Definition parses_method (m : method) : bool :=
  match m_self m with RecvTyped t => parses_ty t | RecvRefMut => true end &&
  forallb (fun p => parses_ty (snd p)) (m_params m) && opt_ok parses_ty (m_ret m) && parses_body (m_body m).
Definition parses_oitem (o : oitem) : bool :=
  match o with
  | OStruct _ _ g fs => parses_generics g && parses_fields fs
  | OEnum _ _ g vs => parses_generics g && forallb (fun v => parses_fields (v_fields v)) vs
  | OImpl im =>
    parses_generics (i_generics im) && opt_ok parses_path (i_trait im) && parses_ty (i_self im) &&
    forallb parses_method (i_methods im)
  | OAssert g t _ => parses_generics g && parses_ty t && no_plus t
  | OTrait _ | OExternCrate _ _ => true
  end.
(** The item that carries the attribute. *)
Definition parses_item (it : item) : bool :=
  match it with
  | ItStruct s => parses_generics (s_generics s) && parses_fields (s_fields s)
  | ItEnum e => parses_generics (e_generics e) && forallb (fun v => parses_fields (v_fields v)) (e_variants e)
  | ItOther => true
  end.

(** ** The impl under [#[pinned_drop]] *)
Definition parses_value (q : option (ty * nat)) (p : path) : bool :=
  opt_ok (fun t => parses_ty (fst t)) q && parses_path p && value_path q p && qualified q p.
Fixpoint parses_pat (p : bpat) : bool :=
  match p with
  | QWild | QBind _ _ | QMacro _ _ => true
  | QPath q p => parses_value q p
  | QStruct p fs => parses_value None p && forallb (fun f => parses_pat (snd f)) fs
  | QTupleStruct p l => parses_value None p && forallb parses_pat l
  | QTuple l => forallb parses_pat l
  end.
Definition parses_fnarg (a : fnarg) : bool :=
  match a with
  | FRecv _ _ _ c => opt_ok parses_ty c
  | FTyped _ p t => parses_pat p && parses_ty t
  end.
Definition parses_sig (s : fsig) : bool :=
  parses_generics (fs_generics s) && forallb parses_fnarg (fs_inputs s) && opt_ok parses_ty (fs_out s).
Fixpoint parses_bexpr (e : bexpr) : bool :=
  match e with
  | XPath q p => parses_value q p
  | XLit _ | XMacro _ _ => true
  | XCall f l => parses_bexpr f && forallb parses_bexpr l
  | XMethod e _ targs l => parses_bexpr e && forallb parses_garg targs && forallb parses_bexpr l
  | XField e _ | XUnary _ e => parses_bexpr e
  | XStruct p fs base =>
    parses_value None p && forallb (fun f => parses_bexpr (snd f)) fs &&
    match base with Some b => parses_bexpr b | None => true end
  | XBinary _ a b => parses_bexpr a && parses_bexpr b
  | XCast e t => parses_bexpr e && parses_ty t && no_plus t
  | XBlock l => forallb parses_bstmt l
  | XMatch e arms => parses_bexpr e && forallb (fun a => parses_pat (fst a) && parses_bexpr (snd a)) arms
  | XClosure ps e => forallb (fun p => parses_pat (fst p) && opt_ok parses_ty (snd p)) ps && parses_bexpr e
  end
with parses_bstmt (s : bstmt) : bool :=
  match s with
  | YLet p t e =>
    parses_pat p && opt_ok parses_ty t && match e with Some e => parses_bexpr e | None => true end
  | YExpr e => parses_bexpr e
  | YFn _ _ s b => parses_sig s && forallb parses_bstmt b
  | YMacroRules _ _ | YItem _ _ => true
  end.
Definition parses_impl_item (x : impl_item) : bool :=
  match x with
  | IIFn m => parses_sig (mt_sig m) && forallb parses_bstmt (mt_block m)
  | IIConst _ | IIType _ | IIOther => true
  end.
Definition parses_impl (im : item_impl) : bool :=
  parses_generics (im_generics im) && opt_ok (fun p => parses_path (snd p)) (im_trait im) && parses_ty (im_self im) &&
  forallb parses_impl_item (im_items im).

(** The type of the impl is a path whose arguments are in angle brackets, and
    no pair of brackets is empty: [impl PinnedDrop for Foo<>] is not covered. *)
Definition angle_args (s : seg) : bool :=
  match s with
  | Seg _ GNone => true
  | Seg _ (GAngle turbofish l) => turbofish || negb (match l with [] => true | _ => false end)
  | Seg _ (GParen _ _) => false
  end.
Definition named_by_path (t : ty) : Prop :=
  exists lead segs, t = TyPath None (Path lead segs) /\ forallb angle_args segs = true.
