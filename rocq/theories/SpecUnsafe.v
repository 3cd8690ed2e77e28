(** Vocabulary for C51: which code stands in an unsafe context, where rustc does
    not object to unsafe operations. *)
From Coq Require Import String List Bool.
From Verif Require Import Base Syntax ModelPinnedDrop SpecMeaning.
Import ListNotations.
Open Scope string_scope.
Open Scope list_scope.

(** What an expression does, without its parts. *)
Definition operation (e : bexpr) : string :=
  match e with
  | XPath _ _ => "path"
  | XLit _ => "literal"
  | XCall _ _ => "call"
  | XMethod _ _ _ _ => "method call"
  | XField _ _ => "field"
  | XStruct _ _ _ => "struct"
  | XUnary op _ => op
  | XBinary op _ _ => op
  | XCast _ _ => "as"
  | XBlock _ => "block"
  | XMatch _ _ => "match"
  | XClosure _ _ => "closure"
  | XMacro _ _ => "macro"
  end.

(** The operations of an expression in order; the flag says whether it stands in
    an unsafe context.  [u] is that flag for the expression itself.  [unsafe {
    .. }] is [XUnary "unsafe" (XBlock ..)]: its inside is an unsafe context.  A
    closure inherits the context; a nested [fn] starts a new one, which is unsafe
    if the [fn] is. *)
Fixpoint contexts (u : bool) (e : bexpr) : list (string * bool) :=
  (operation e, u) ::
  match e with
  | XPath _ _ | XLit _ | XMacro _ _ => []
  | XCall f l => contexts u f ++ flat_map (contexts u) l
  | XMethod e _ _ l => contexts u e ++ flat_map (contexts u) l
  | XField e _ => contexts u e
  | XStruct _ fs base =>
    flat_map (fun f => contexts u (snd f)) fs ++ match base with Some b => contexts u b | None => [] end
  | XUnary op e => contexts (u || String.eqb op "unsafe") e
  | XBinary _ a b => contexts u a ++ contexts u b
  | XCast e _ => contexts u e
  | XBlock l => flat_map (contexts_stmt u) l
  | XMatch e arms => contexts u e ++ flat_map (fun a => contexts u (snd a)) arms
  | XClosure _ e => contexts u e
  end
with contexts_stmt (u : bool) (s : bstmt) : list (string * bool) :=
  match s with
  | YLet _ _ e => match e with Some e => contexts u e | None => [] end
  | YExpr e => contexts u e
  | YFn _ _ s b => flat_map (contexts_stmt (fs_unsafe s)) b
  | YMacroRules _ _ | YItem _ _ => []
  end.
(** The operations of a method. *)
Definition contexts_method (m : imethod) : list (string * bool) :=
  flat_map (contexts_stmt (fs_unsafe (mt_sig m))) (mt_block m).

(** The types written in a generated body. *)
Fixpoint types_stmt (s : stmt) : list ty :=
  match s with
  | SLet _ t _ => match t with Some t => [t] | None => [] end
  | SExpr _ => []
  | SBlock l => flat_map types_stmt l
  end.
Definition types_body (b : body) : list ty :=
  match b with
  | BTail l _ => flat_map types_stmt l
  | BMatch l _ arms => flat_map types_stmt l ++ flat_map (fun a => flat_map types_stmt (arm_stmts a)) arms
  end.
