(** Model of /repo/pin-project-internal/src/pinned_drop.rs. *)
From Coq Require Import String Ascii List Bool Arith.
From Verif Require Import Base Syntax ModelArgs ModelUtils.
Import ListNotations.
Open Scope string_scope.
Open Scope list_scope.

(** ** The code a [#[pinned_drop]] impl consists of

    [syn::Pat], [Expr], [Stmt], [Signature], [ImplItemFn], [ItemImpl], as far as
    the macro distinguishes them.  Simplifications: statements and expressions
    carry no attributes; expression forms that [ReplaceReceiver] only passes
    through are represented by the forms below that bind and nest in the same
    way ([if], [while], [loop], [return] ... as [XUnary]/[XBinary]/[XBlock]/[XMatch]). *)
Inductive bpat : Type :=
| QWild
| QBind (m : bool) (x : ident)                    (* mut x *)
| QPath (q : option (ty * nat)) (p : path)        (* Pat::Path *)
| QStruct (p : path) (fs : list (ident * bpat))   (* Pat::Struct *)
| QTupleStruct (p : path) (l : list bpat)         (* Pat::TupleStruct *)
| QTuple (l : list bpat)                          (* Pat::Tuple, Pat::Reference, .. *)
| QMacro (mac : list ident) (ts : list ttree).    (* Pat::Macro *)

(** [FnArg]: a receiver ([&'a mut self], [mut self: T]) or a typed argument. *)
Inductive fnarg : Type :=
| FRecv (at_ : list attr) (ref_ : option (option string)) (m : bool) (colon : option ty)
| FTyped (at_ : list attr) (p : bpat) (t : ty).

Record fsig : Type := mkSig {
  fs_const : bool; fs_async : bool; fs_unsafe : bool; fs_abi : bool;
  fs_ident : ident; fs_generics : generics; fs_inputs : list fnarg;
  fs_variadic : bool; fs_out : option ty
}.

Inductive bexpr : Type :=
| XPath (q : option (ty * nat)) (p : path)
| XLit (s : string)
| XCall (f : bexpr) (l : list bexpr)
| XMethod (e : bexpr) (m : ident) (targs : list garg) (l : list bexpr)
| XField (e : bexpr) (i : ident)
| XStruct (p : path) (fs : list (ident * bexpr)) (base : option bexpr)
| XUnary (op : string) (e : bexpr)
| XBinary (op : string) (a b : bexpr)
| XCast (e : bexpr) (t : ty)
| XBlock (l : list bstmt)
| XMatch (e : bexpr) (arms : list (bpat * bexpr))
| XClosure (ps : list (bpat * option ty)) (e : bexpr)
| XMacro (mac : list ident) (ts : list ttree)
with bstmt : Type :=
| YLet (p : bpat) (t : option ty) (e : option bexpr)
| YExpr (e : bexpr)
| YFn (at_ : list attr) (v : vis) (s : fsig) (b : list bstmt)   (* a nested [fn] *)
| YMacroRules (x : ident) (ts : list ttree)
| YItem (x : ident) (ts : list ttree).                          (* any other nested item *)

(** [ImplItemFn], [ImplItem], [ItemImpl].  [IIOther] is [ImplItem::Macro] or
    [ImplItem::Verbatim]. *)
Record imethod : Type := mkIMethod {
  mt_attrs : list attr; mt_vis : vis; mt_default : bool; mt_sig : fsig; mt_block : list bstmt
}.
Inductive impl_item : Type :=
| IIConst (i : ident)
| IIType (i : ident)
| IIFn (m : imethod)
| IIOther.
Record item_impl : Type := mkItemImpl {
  im_attrs : list attr; im_default : bool; im_unsafe : bool; im_generics : generics;
  im_trait : option (bool * path);   (* [!] or not, and the path *)
  im_self : ty; im_items : list impl_item
}.

(** ** [ReplaceReceiver] on signatures and blocks (utils.rs:278-354).
    Unlike in [replace_ty], paths of struct expressions and patterns are
    visited after the receiver type was spliced in, exactly as in the code. *)
Section Replace.
  Variable self : type_path.
  Let self_toks : list ttree := print_ty (tp_ty self).

  (** [visit_expr_path_mut] (utils.rs:300-305). *)
  Definition replace_qpath (q : option (ty * nat)) (p : path) : option (ty * nat) * path :=
    match replace_expr self (EPath q p) with
    | EPath q' p' => (q', p')
    | _ => (q, p)
    end.
  (** [visit_expr_struct_mut], [visit_pat_struct_mut], [visit_pat_tuple_struct_mut] (307-320). *)
  Definition replace_struct_path (p : path) : path := replace_path self (self_to_expr_path self p).

  Fixpoint replace_pat (p : bpat) : bpat :=
    match p with
    | QWild => QWild
    | QBind m x => QBind m x
    | QPath q p => let '(q', p') := replace_qpath q p in QPath q' p'
    | QStruct p fs => QStruct (replace_struct_path p) (map (fun f => (fst f, replace_pat (snd f))) fs)
    | QTupleStruct p l => QTupleStruct (replace_struct_path p) (map replace_pat l)
    | QTuple l => QTuple (map replace_pat l)
    | QMacro m ts => QMacro m (visit_macro self_toks ts)
    end.

  Definition replace_fnarg (a : fnarg) : fnarg :=
    match a with
    | FRecv at_ r m c => FRecv (map replace_attr at_) r m (option_map (replace_ty self) c)
    | FTyped at_ p t => FTyped (map replace_attr at_) (replace_pat p) (replace_ty self t)
    end.
  Definition replace_sig (s : fsig) : fsig :=
    mkSig (fs_const s) (fs_async s) (fs_unsafe s) (fs_abi s) (fs_ident s)
      (replace_generics self (fs_generics s)) (map replace_fnarg (fs_inputs s))
      (fs_variadic s) (option_map (replace_ty self) (fs_out s)).

  (** Blocks and expressions.  Nested items are not entered, except
      [macro_rules!] (332-342). *)
  Fixpoint replace_bexpr (e : bexpr) : bexpr :=
    match e with
    | XPath q p => let '(q', p') := replace_qpath q p in XPath q' p'
    | XLit s => XLit s
    | XCall f l => XCall (replace_bexpr f) (map replace_bexpr l)
    | XMethod e m targs l =>
      XMethod (replace_bexpr e) m (map (replace_garg self) targs) (map replace_bexpr l)
    | XField e i => XField (replace_bexpr e) i
    | XStruct p fs base =>
      XStruct (replace_struct_path p) (map (fun f => (fst f, replace_bexpr (snd f))) fs)
        (match base with Some b => Some (replace_bexpr b) | None => None end)
    | XUnary op e => XUnary op (replace_bexpr e)
    | XBinary op a b => XBinary op (replace_bexpr a) (replace_bexpr b)
    | XCast e t => XCast (replace_bexpr e) (replace_ty self t)
    | XBlock l => XBlock (map replace_bstmt l)
    | XMatch e arms =>
      XMatch (replace_bexpr e) (map (fun a => (replace_pat (fst a), replace_bexpr (snd a))) arms)
    | XClosure ps e =>
      XClosure (map (fun p => (replace_pat (fst p), option_map (replace_ty self) (snd p))) ps) (replace_bexpr e)
    | XMacro m ts => XMacro m (visit_macro self_toks ts)
    end
  with replace_bstmt (s : bstmt) : bstmt :=
    match s with
    | YLet p t e =>
      YLet (replace_pat p) (option_map (replace_ty self) t)
        (match e with Some e => Some (replace_bexpr e) | None => None end)
    | YExpr e => YExpr (replace_bexpr e)
    | YFn at_ v s b => YFn at_ v s b
    | YMacroRules x ts => YMacroRules x (visit_macro self_toks ts)
    | YItem x ts => YItem x ts
    end.
  Definition replace_block (l : list bstmt) : list bstmt := map replace_bstmt l.
End Replace.

(** ** [validate_sig] (pinned_drop.rs:106-159) *)

(** The type of a receiver: as written, or [Self] / [&Self] / [&mut Self] for
    the shorthands ([syn::Receiver::ty]). *)
Definition recv_ty (ref_ : option (option string)) (m : bool) (colon : option ty) : ty :=
  match colon with
  | Some t => t
  | None => match ref_ with Some lt => TyRef lt m ty_self | None => ty_self end
  end.
(** [get_ty_path] (107-109). *)
Definition get_ty_path (t : ty) : option path :=
  match t with TyPath None p => Some p | _ => None end.
(** [Path::is_ident] on a path in the tree. *)
Definition tpath_is_ident (p : path) (s : string) : bool :=
  match p with Path false [Seg i GNone] => ident_is i s | _ => false end.
Definition path_segs (p : path) : list seg := match p with Path _ segs => segs end.

(** The nested [if let]s of 130-155: is the type [(<path>::)Pin<&mut Self>]? *)
Definition is_pin_mut_self (t : ty) : bool :=
  match get_ty_path t with
  | Some p =>
    match last (path_segs p) (Seg (I "") GNone) with
    | Seg i (GAngle _ args) =>
      match args with
      | ATy (TyRef _ true elem) :: rest =>
        match rest with [] => true | _ => false end && ident_is i "Pin" &&
        match get_ty_path elem with Some p' => tpath_is_ident p' "Self" | None => false end
      | _ => false
      end
    | _ => false
    end
  | None => false
  end.

Definition invalid_argument : string := "method `drop` must take an argument `self: Pin<&mut Self>`".

Definition validate_sig (s : fsig) : res unit :=
  if negb (ident_is (fs_ident s) "drop") then
    Err ("method `" ++ ident_str (fs_ident s) ++ "` is not a member of trait `PinnedDrop`")
  else
    do _ <-
      match fs_out s with
      | None | Some (TyTuple []) => Ok tt
      | Some _ => Err "method `drop` must return the unit type"
      end;
    match fs_inputs s with
    | [arg] =>
      match arg with
      | FRecv _ r m c =>
        match get_ty_path (recv_ty r m c) with
        | Some (Path _ []) => Panic "type paths should always have at least one segment"
        | _ =>
          if is_pin_mut_self (recv_ty r m c) then
            if fs_unsafe s then Err "implementing the method `drop` is not unsafe" else Ok tt
          else Err invalid_argument
        end
      | FTyped _ _ _ => Err invalid_argument
      end
    | _ => Err invalid_argument
    end.

(** ** [validate_impl] (56-101) *)
Definition invalid_item : string :=
  "#[pinned_drop] may only be used on implementation for the `PinnedDrop` trait".
Fixpoint validate_items (i : nat) (l : list impl_item) : res unit :=
  match l with
  | [] => Ok tt
  | it :: r =>
    do _ <-
      match it with
      | IIConst n => Err ("const `" ++ ident_str n ++ "` is not a member of trait `PinnedDrop`")
      | IIType n => Err ("type `" ++ ident_str n ++ "` is not a member of trait `PinnedDrop`")
      | IIFn m =>
        do _ <- validate_sig (mt_sig m);
        match i with 0 => Ok tt | S _ => Err "duplicate definitions with name `drop`" end
      | IIOther => Panic "internal error: entered unreachable code: unexpected ImplItem"
      end;
    validate_items (S i) r
  end.
Definition validate_impl (im : item_impl) : res unit :=
  match attrs_find (im_attrs im) "pinned_drop" with
  | Some _ => Err "duplicate #[pinned_drop] attribute"
  | None =>
    match im_trait im with
    | None => Err invalid_item
    | Some (_, p) =>
      if negb (tpath_is_ident p "PinnedDrop") then Err invalid_item
      else if im_unsafe im then Err "implementing the trait `PinnedDrop` is not unsafe"
      else
        match im_items im with
        | [] => Err "not all trait items implemented, missing: `drop`"
        | items =>
          match im_self im with
          | TyPath _ _ => validate_items 0 items
          | _ => Err "implementing the trait `PinnedDrop` on this type is unsupported"
          end
        end
    end
  end.

(** ** [expand_impl] (176-233) *)
Definition doc_hidden : attr := mkAttr false [I "doc"] (MList Paren [TIdent (I "hidden")]).
(** [#[allow(clippy::..)]] (225-229). *)
Definition allow_attr : attr :=
  mkAttr false [I "allow"] (MList Paren
    (sep_by [t_comma] (map (fun x => TIdent (I "clippy") :: t_colon2 ++ [TIdent (I x)])
       ["missing_const_for_fn"; "needless_pass_by_value"; "single_call_fn"]))).
Definition pinned_drop_trait : path := spath true ["pin_project"; "__private"; "PinnedDrop"].
Definition drop_inner_id : ident := I "__drop_inner".
Definition self_id : ident := I "self".
Definition var (x : ident) : bexpr := XPath None (Path false [Seg x GNone]).

(** [fn __drop_inner() {}] (192). *)
Definition dummy_fn : bstmt :=
  YFn [] VInherited (mkSig false false false false drop_inner_id (mkGenerics [] None) [] false None) [].

(** [drop_inner] (188-214). *)
Definition inner_sig (g : generics) (s : fsig) : fsig :=
  mkSig (fs_const s) (fs_async s) (fs_unsafe s) (fs_abi s) drop_inner_id g
    (match fs_inputs s with
     | FRecv at_ r m c :: rest => FTyped at_ (QBind m (I "__self")) (recv_ty r m c) :: rest
     | l => l
     end)
    (fs_variadic s) (fs_out s).
Definition drop_inner (self : type_path) (g : generics) (m : imethod) : bstmt :=
  YFn (allow_attr :: mt_attrs m) (mt_vis m)
    (replace_sig self (inner_sig g (mt_sig m)))
    (replace_block self (dummy_fn :: mt_block m)).
(** The outer method (216-232). *)
Definition outer_sig (s : fsig) : fsig :=
  mkSig (fs_const s) (fs_async s) true (fs_abi s) (fs_ident s) (fs_generics s)
    (match fs_inputs s with
     | FRecv at_ r _ c :: rest => FRecv at_ r false c :: rest
     | l => l
     end)
    (fs_variadic s) (fs_out s).
Definition outer_method (self : type_path) (g : generics) (m : imethod) : imethod :=
  mkIMethod (mt_attrs m) (mt_vis m) (mt_default m) (outer_sig (mt_sig m))
    [drop_inner self g m; YExpr (XCall (var drop_inner_id) [var self_id])].

(** [parse_quote!] (224-232) parses the inner function as a statement, which
    fails, and then panics, if it starts with [default]. *)
Definition expand_impl (im : item_impl) : res item_impl :=
  match im_items im, im_self im, im_trait im with
  | IIFn m :: rest, TyPath q p, Some (neg, _) =>
    if mt_default m then Panic "parse_quote: expected `;`"
    else
    Ok (mkItemImpl (im_attrs im ++ [doc_hidden]) (im_default im) (im_unsafe im) (im_generics im)
          (Some (neg, pinned_drop_trait)) (im_self im)
          (IIFn (outer_method (mkTypePath q p) (im_generics im) m) :: rest))
  | _, _, _ => Panic "internal error: entered unreachable code"
  end.

(** [Display] for token streams.  Simplification: one word for each token and one
    space between words; the compiler is free in its spacing. *)
Definition open_delim (d : delim) : list string :=
  match d with Paren => ["("] | Brace => ["{"] | Bracket => ["["] | NoDelim => [] end.
Definition close_delim (d : delim) : list string :=
  match d with Paren => [")"] | Brace => ["}"] | Bracket => ["]"] | NoDelim => [] end.
Fixpoint words_of (t : ttree) : list string :=
  match t with
  | TIdent i => [ident_str i]
  | TPunct c _ => [String c ""]
  | TLit s => [s]
  | TGroup d l => open_delim d ++ flat_map words_of l ++ close_delim d
  end.
Definition text (ts : list ttree) : string := String.concat " " (flat_map words_of ts).

(** ** [attribute] (13-52) *)

(** The dummy impl (39-45). *)
Definition dummy_impl (im : item_impl) : item_impl :=
  mkItemImpl [] false false
    (mkGenerics (impl_params (im_generics im)) (g_where (im_generics im)))
    (Some (false, pinned_drop_trait)) (im_self im)
    [IIFn (mkIMethod [] VInherited false
       (mkSig false false true false (I "drop") (mkGenerics [] None)
          [FRecv [] None false (Some (TyPath None (Path true [seg1 "pin_project"; seg1 "__private";
             Seg (I "Pin") (GAngle false [ATy (TyRef None true ty_self)])])))] false None) [])].

(** What the macro prints: the expanded impl, or [compile_error!] and possibly a
    dummy impl. *)
Inductive pd_output : Type :=
| PdImpl (im : item_impl)
| PdError (msg : string) (dummy : option item_impl).

(** [Panic] is a panic of the macro itself. *)
Definition pinned_drop_attribute (args : list ttree) (im : item_impl) : res pd_output :=
  let r :=
    match args with
    | _ :: _ => Err ("unexpected argument: `" ++ text args ++ "`")%string
    | [] => do _ <- validate_impl im; expand_impl im
    end in
  match r with
  | Ok im' => Ok (PdImpl im')
  | Panic m => Panic m
  | Err m => Ok (PdError m (match im_self im with TyPath _ _ => Some (dummy_impl im) | _ => None end))
  end.
