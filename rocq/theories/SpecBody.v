(** What the body of a [#[pinned_drop]] method means: the code with every name
    and type resolved.  Over an arbitrary universe of types (ModelMeaning.v). *)
From Coq Require Import String Ascii List Bool.
From Verif Require Import Base Syntax ModelUtils ModelPinnedDrop ModelMeaning.
From Verif Require Import SpecLifetime SpecMeaning SpecPinnedDrop.
Import ListNotations.
Open Scope string_scope.
Open Scope list_scope.

(** ** Resolved code

    Variables are numbered in the order of their introduction, types and
    constants are entities of the universe.  Nested functions are kept as text
    together with the bindings their names refer to; other nested items are kept
    as text. *)
Section Code.
  Variable U : univ.
  Inductive mpat : Type :=
  | MPWild
  | MPBind (m : bool)
  | MPPath (d : D U)
  | MPStruct (d : D U) (fs : list (ident * mpat))
  | MPTupleStruct (d : D U) (l : list mpat)
  | MPTuple (l : list mpat)
  | MPMacro (d : D U).
  Inductive mexpr : Type :=
  | MLocal (n : nat)
  | MPath (d : D U)
  | MLit (s : string)
  | MCall (f : mexpr) (l : list mexpr)
  | MMethod (e : mexpr) (m : ident) (targs : list (darg (D U) (LT U))) (l : list mexpr)
  | MField (e : mexpr) (i : ident)
  | MStruct (d : D U) (fs : list (ident * mexpr)) (base : option mexpr)
  | MUnary (op : string) (e : mexpr)
  | MBinary (op : string) (a b : mexpr)
  | MCast (e : mexpr) (d : D U)
  | MBlock (l : list mstmt)
  | MMatch (e : mexpr) (arms : list (mpat * mexpr))
  | MClosure (ps : list (mpat * option (D U))) (e : mexpr)
  | MMacro (d : D U)
  with mstmt : Type :=
  | MLet (p : mpat) (t : option (D U)) (e : option mexpr)
  | MExpr (e : mexpr)
  | MFn (at_ : list attr) (v : vis) (s : fsig) (b : list bstmt) (u : list use)
  | MRules (x : ident) (d : D U)
  | MItem (x : ident) (ts : list ttree).
End Code.
Arguments MPWild {U}. Arguments MPBind {U}. Arguments MPPath {U}. Arguments MPStruct {U}.
Arguments MPTupleStruct {U}. Arguments MPTuple {U}. Arguments MPMacro {U}.
Arguments MLocal {U}. Arguments MPath {U}. Arguments MLit {U}. Arguments MCall {U}. Arguments MMethod {U}.
Arguments MField {U}. Arguments MStruct {U}. Arguments MUnary {U}. Arguments MBinary {U}. Arguments MCast {U}.
Arguments MBlock {U}. Arguments MMatch {U}. Arguments MClosure {U}. Arguments MMacro {U}.
Arguments MLet {U}. Arguments MExpr {U}. Arguments MFn {U}. Arguments MRules {U}. Arguments MItem {U}.

(** The innermost item called [x] that is visible. *)
Fixpoint item_named (x : string) (e : scope) : option label :=
  match e with
  | [] => None
  | (y, Item d z) :: r => if String.eqb (name y) x then Some (Item d z) else item_named x r
  | (_, Local _) :: r => item_named x r
  end.

Section Resolve.
  Variable U : univ.
  Notation E_ := (env (D U) (LT U)).
  (** What the items declared inside the body stand for, and what macro calls
      and [macro_rules!] definitions stand for where they are written. *)
  Variable loc : label -> head (D U).
  Variable call : scope -> E_ -> list ident -> list ttree -> D U.

  (** What names mean inside of blocks with items. *)
  Definition env_in (e : scope) (E : E_) : E_ :=
    mkEnv (fun x => match item_named x e with Some l => loc l | None => names E x end) (lts_of E).

  (** A path in an expression: a local variable, or whatever it leads to. *)
  Definition res_path (E : E_) (e : scope) (q : option (ty * nat)) (p : path) : mexpr U :=
    match q, p with
    | None, Path false [Seg x _] =>
      match lookup x e with
      | Some (Local n) => MLocal n
      | _ => MPath (den_expr (env_in e E) (EPath q p))
      end
    | _, _ => MPath (den_expr (env_in e E) (EPath q p))
    end.

  Fixpoint res_pat (E : E_) (e : scope) (p : bpat) : mpat U :=
    match p with
    | QWild => MPWild
    | QBind m _ => MPBind m
    | QPath q p => MPPath (den_expr (env_in e E) (EPath q p))
    | QStruct p fs => MPStruct (den_path (env_in e E) p) (map (fun f => (fst f, res_pat E e (snd f))) fs)
    | QTupleStruct p l => MPTupleStruct (den_path (env_in e E) p) (map (res_pat E e) l)
    | QTuple l => MPTuple (map (res_pat E e) l)
    | QMacro m ts => MPMacro (call e (env_in e E) m ts)
    end.

  (** [n], [d] and the scoping as in [uses]. *)
  Fixpoint res (E : E_) (n d : nat) (e : scope) (x : bexpr) : mexpr U :=
    match x with
    | XPath q p => res_path E e q p
    | XLit s => MLit s
    | XCall f l => MCall (res E n d e f) (map (res E n d e) l)
    | XMethod f m targs l =>
      MMethod (res E n d e f) m (map (den_garg (env_in e E)) targs) (map (res E n d e) l)
    | XField f i => MField (res E n d e f) i
    | XStruct p fs base =>
      MStruct (den_path (env_in e E) p) (map (fun f => (fst f, res E n d e (snd f))) fs)
        (match base with Some b => Some (res E n d e b) | None => None end)
    | XUnary o f => MUnary o (res E n d e f)
    | XBinary o a b => MBinary o (res E n d e a) (res E n d e b)
    | XCast f t => MCast (res E n d e f) (den_ty (env_in e E) t)
    | XBlock l =>
      MBlock ((fix go (n : nat) (e : scope) (l : list bstmt) : list (mstmt U) :=
         match l with
         | [] => []
         | s :: r => res_stmt E n (S d) e s :: go (n + length (stmt_vars s)) (bind_vars n (stmt_vars s) e) r
         end) n (block_items (S d) l ++ e) l)
    | XMatch f arms =>
      MMatch (res E n d e f)
        (map (fun a => (res_pat E e (fst a),
                        res E (n + length (pat_vars (fst a))) d (bind_vars n (pat_vars (fst a)) e) (snd a))) arms)
    | XClosure ps f =>
      let xs := flat_map (fun p => pat_vars (fst p)) ps in
      MClosure (map (fun p => (res_pat E e (fst p), option_map (den_ty (env_in e E)) (snd p))) ps)
        (res E (n + length xs) d (bind_vars n xs e) f)
    | XMacro m ts => MMacro (call e (env_in e E) m ts)
    end
  with res_stmt (E : E_) (n d : nat) (e : scope) (s : bstmt) : mstmt U :=
    match s with
    | YLet p t x =>
      MLet (res_pat E e p) (option_map (den_ty (env_in e E)) t)
        (match x with Some x => Some (res E n d e x) | None => None end)
    | YExpr x => MExpr (res E n d e x)
    | YFn at_ v sg b => MFn at_ v sg b (uses_stmt n d e s)
    | YMacroRules x ts => MRules x (call e (env_in e E) [I "macro_rules"] ts)
    | YItem x ts => MItem x ts
    end.
  (** The statements of a block at depth [d] whose items are already in scope. *)
  Definition res_stmts (E : E_) (d : nat) : nat -> scope -> list bstmt -> list (mstmt U) :=
    fix go (n : nat) (e : scope) (l : list bstmt) : list (mstmt U) :=
      match l with
      | [] => []
      | s :: r => res_stmt E n d e s :: go (n + length (stmt_vars s)) (bind_vars n (stmt_vars s) e) r
      end.
  (** The body of a function with parameters [xs], at depth [d], where [e] is in scope. *)
  Definition res_body (E : E_) (d : nat) (xs : list ident) (e : scope) (l : list bstmt) : list (mstmt U) :=
    res_stmts E d (length xs) (block_items d l ++ bind_vars 0 xs (items_only e)) l.
End Resolve.
Arguments env_in {U}. Arguments res_path {U}. Arguments res_pat {U}. Arguments res {U}.
Arguments res_stmt {U}. Arguments res_stmts {U}. Arguments res_body {U}.

(** ** What a body contains *)

(** The type expressions of a body. *)
Inductive part : Type :=
| PaTy (t : ty)
| PaArg (a : garg)
| PaPath (p : path)                              (* a struct path *)
| PaValue (q : option (ty * nat)) (p : path)     (* a path in an expression *)
| PaPat (q : option (ty * nat)) (p : path).      (* a path as a pattern *)

Definition parts_opt (o : option ty) : list part := match o with Some t => [PaTy t] | None => [] end.
Fixpoint parts_pat (p : bpat) : list part :=
  match p with
  | QWild | QBind _ _ | QMacro _ _ => []
  | QPath q p => [PaPat q p]
  | QStruct p fs => PaPath p :: flat_map (fun f => parts_pat (snd f)) fs
  | QTupleStruct p l => PaPath p :: flat_map parts_pat l
  | QTuple l => flat_map parts_pat l
  end.
Fixpoint parts_body (x : bexpr) : list part :=
  match x with
  | XPath q p => [PaValue q p]
  | XLit _ | XMacro _ _ => []
  | XCall f l => parts_body f ++ flat_map parts_body l
  | XMethod f _ targs l => parts_body f ++ map PaArg targs ++ flat_map parts_body l
  | XField f _ | XUnary _ f => parts_body f
  | XStruct p fs base =>
    PaPath p :: flat_map (fun f => parts_body (snd f)) fs ++
    match base with Some b => parts_body b | None => [] end
  | XBinary _ a b => parts_body a ++ parts_body b
  | XCast f t => parts_body f ++ [PaTy t]
  | XBlock l => flat_map parts_stmt l
  | XMatch f arms => parts_body f ++ flat_map (fun a => parts_pat (fst a) ++ parts_body (snd a)) arms
  | XClosure ps f => flat_map (fun p => parts_pat (fst p) ++ parts_opt (snd p)) ps ++ parts_body f
  end
with parts_stmt (s : bstmt) : list part :=
  match s with
  | YLet p t e => parts_pat p ++ parts_opt t ++ match e with Some x => parts_body x | None => [] end
  | YExpr x => parts_body x
  | YFn _ _ _ _ | YMacroRules _ _ | YItem _ _ => []
  end.

(** Their paths, lifetimes and macro calls; the variable [self] is not counted. *)
Definition nodes_spath (p : path) : list node := nodes_ty (TyPath None p).
Definition nodes_vpath (q : option (ty * nat)) (p : path) : list node :=
  match q, p with
  | None, Path false [Seg i GNone] => if ident_eqb i (I "self") then [] else nodes_expr (EPath q p)
  | _, _ => nodes_expr (EPath q p)
  end.
Definition nodes_part (x : part) : list node :=
  match x with
  | PaTy t => nodes_ty t
  | PaArg a => nodes_garg a
  | PaPath p => nodes_spath p
  | PaValue q p => nodes_vpath q p
  | PaPat q p => nodes_expr (EPath q p)
  end.
(** The lifetimes bound by [for<..>] in them. *)
Definition binds_part (lt : string) (x : part) : Prop :=
  match x with
  | PaTy t => binds_ty lt t
  | PaArg a => binds_gargs lt (GAngle false [a])
  | PaPath p => binds_path lt p
  | PaValue q p | PaPat q p => binds_expr lt (EPath q p)
  end.

(** The macro calls of a body, outside of its types. *)
Fixpoint calls_pat (p : bpat) : list (list ident * list ttree) :=
  match p with
  | QWild | QBind _ _ | QPath _ _ => []
  | QStruct _ fs => flat_map (fun f => calls_pat (snd f)) fs
  | QTupleStruct _ l | QTuple l => flat_map calls_pat l
  | QMacro m ts => [(m, ts)]
  end.
Fixpoint calls_body (x : bexpr) : list (list ident * list ttree) :=
  match x with
  | XPath _ _ | XLit _ => []
  | XMacro m ts => [(m, ts)]
  | XCall f l => calls_body f ++ flat_map calls_body l
  | XMethod f _ _ l => calls_body f ++ flat_map calls_body l
  | XField f _ | XUnary _ f | XCast f _ => calls_body f
  | XStruct _ fs base =>
    flat_map (fun f => calls_body (snd f)) fs ++ match base with Some b => calls_body b | None => [] end
  | XBinary _ a b => calls_body a ++ calls_body b
  | XBlock l => flat_map calls_stmt l
  | XMatch f arms => calls_body f ++ flat_map (fun a => calls_pat (fst a) ++ calls_body (snd a)) arms
  | XClosure ps f => flat_map (fun p => calls_pat (fst p)) ps ++ calls_body f
  end
with calls_stmt (s : bstmt) : list (list ident * list ttree) :=
  match s with
  | YLet p _ e => calls_pat p ++ match e with Some x => calls_body x | None => [] end
  | YExpr x => calls_body x
  | YMacroRules _ ts => [([I "macro_rules"], ts)]
  | YFn _ _ _ _ | YItem _ _ => []
  end.

(** ** When the receiver can be replaced *)

(** Inside the generated function names mean the same as in the impl, except
    [Self], which is not available there, and the function's own name. *)
Definition moved_names (U : univ) (n n' : string -> head (D U)) : Prop :=
  forall x, x <> "Self" -> x <> "__drop_inner" -> n' x = n x.
(** The names of local variables and items are the same, with [__self] for [self]. *)
Definition moved_scope (e e' : scope) : Prop :=
  lookup (I "__self") e' = lookup (I "self") e /\
  forall x, x <> I "self" -> x <> I "__self" -> x <> I "__drop_inner" -> lookup x e' = lookup x e.

(** Type expressions [l], in an impl for the type [p], whose receiver can be
    spelled out in the generated function. *)
Record respellable (U : univ) (n : string -> head (D U)) (p : path) (l : list node) (binds : string -> Prop) : Prop := {
  (* names the generated code uses are left alone *)
  rs_names : forall x, looks_up l x \/ looks_up (nodes_spath p) x -> x <> "__self" /\ x <> "__drop_inner";
  (* [self] and [Self] are keywords *)
  rs_self : self_legal l;
  rs_Self : ~ In NOddSelf l;
  (* no [for<..>] hides a lifetime of the type *)
  rs_lts : forall x, binds x -> ~ In (NLt x) (nodes_spath p);
  (* macro calls: what they mean does not depend on the spelling of [Self] *)
  rs_macros : forall m ts n1 n2 f g, In (NMacro m ts) l -> n1 "Self" = n "Self" ->
    moved_names U n1 n2 -> (forall x, g x = f x) ->
    u_macro U (mkEnv n2 g) m (visit_macro (print_ty (TyPath None p)) ts) = u_macro U (mkEnv n1 f) m ts
}.
(** A body [l] of an impl for the type [p]. *)
Record movable (U : univ) (n : string -> head (D U)) (call : scope -> env (D U) (LT U) -> list ident -> list ttree -> D U)
    (p : path) (l : list bstmt) : Prop := {
  mo_parts : respellable U n p (flat_map nodes_part (flat_map parts_stmt l))
    (fun x => exists t, In t (flat_map parts_stmt l) /\ binds_part x t);
  mo_reserved : forall x, In x (flat_map mentions_stmt l) -> x <> I "__self" /\ x <> I "__drop_inner";
  mo_binders : forall x, In x (flat_map binders_stmt l) -> x <> I "self" /\ name x <> "Self";
  (* no variable or item of the body hides something in the type *)
  mo_hidden : forall x, In x (flat_map binders_stmt l) -> ~ looks_up (nodes_spath p) (name x);
  (* macro calls: what they mean does not depend on the spelling of [Self] and [self] *)
  mo_calls : forall m ts n1 n2 f e1 e2, In (m, ts) (flat_map calls_stmt l) -> n1 "Self" = n "Self" ->
    moved_names U n1 n2 -> moved_scope e1 e2 ->
    call e2 (mkEnv n2 f) m (visit_macro (print_ty (TyPath None p)) ts) = call e1 (mkEnv n1 f) m ts
}.
(** The signature: the generics [g] of the impl and the type [t] of the receiver. *)
Definition movable_sig (U : univ) (n : string -> head (D U)) (p : path) (g : generics) (t : ty) : Prop :=
  respellable U n p (nodes_generics g ++ nodes_ty t) (fun x => binds_generics x g \/ binds_ty x t).
(** The type [p] of the impl, as the meaning of [Self]; a plain type without
    macros, [self] and [Self]. *)
Record self_type_is (U : univ) (n : string -> head (D U)) (f : string -> LT U) (p : path) : Prop := {
  si_path : exists lead s r, p = Path lead (s :: r);
  si_self : n "Self" = HDone (den_ty (mkEnv n f) (TyPath None p));
  si_macros : forall m ts, ~ In (NMacro m ts) (nodes_spath p);
  si_keyword : self_legal (nodes_spath p);
  si_Self : ~ looks_up (nodes_spath p) "Self"
}.
