(** Printing the generated code as tokens: the [quote!] templates of
    /repo/pin-project-internal/src/pin_project/derive.rs and
    /repo/pin-project-internal/src/pinned_drop.rs, and [ToTokens] of [syn].

    Trailing commas are not printed.  The theorems about tokens (C62) are about
    what is printed here; ConformExpand.v compares it with the expansions recorded in
    /repo/tests/expand. *)
From Coq Require Import String Ascii List Bool.
From Verif Require Import Base Syntax ModelUtils ModelDerive ModelLints ModelPinnedDrop.
Import ListNotations.
Open Scope string_scope.
Open Scope list_scope.

Definition punct (c : ascii) : ttree := TPunct c false.
Definition commas (l : list (list ttree)) : list ttree := sep_by [t_comma] l.
Definition group (d : delim) (l : list ttree) : list ttree := [TGroup d l].
Definition print_ids (l : list ident) : list ttree := sep_by t_colon2 (map (fun i => [TIdent i]) l).

Definition print_vis (v : vis) : list ttree :=
  match v with
  | VInherited => []
  | VPub => [t_id "pub"]
  | VRestricted in_ p => [t_id "pub"; TGroup Paren ((if in_ then [t_id "in"] else []) ++ print_ids p)]
  end.

(** Attributes. *)
Definition print_attr (a : attr) : list ttree :=
  [punct "#"; TGroup Bracket
     ((if a_lead a then t_colon2 else []) ++ print_ids (a_path a) ++
      match a_meta a with MPath => [] | MList d ts => [TGroup d ts] | MNameValue ts => punct "=" :: ts end)].
Definition print_lint (l : lint) : list ttree := print_ids (map I l).
Definition print_gattr (g : gattr) : list ttree :=
  print_attr match g with
             | AAllow l => mkAttr false [I "allow"] (MList Paren (commas (map print_lint l)))
             | AForbid l => mkAttr false [I "forbid"] (MList Paren (commas (map print_lint l)))
             | ADocHidden => mkAttr false [I "doc"] (MList Paren [t_id "hidden"])
             | AInline => mkAttr false [I "inline"] MPath
             end.

(** Generics: [split_for_impl] prints no defaults; definitions print them. *)
Definition print_bounds (bs : list bound) : list ttree :=
  match bs with
  | [] => []
  | _ => punct ":" :: sep_by [punct "+"] (map print_bound bs)
  end.
Definition print_lts (bs : list string) : list ttree :=
  match bs with
  | [] => []
  | _ => punct ":" :: sep_by [punct "+"] (map print_lt bs)
  end.
Definition print_param (p : gparam) : list ttree :=
  match p with
  | PLt lt bs => print_lt lt ++ print_lts bs
  | PTy i bs d => TIdent i :: print_bounds bs ++ opt_list (fun t => punct "=" :: print_ty t) d
  | PConst i t d =>
    [t_id "const"; TIdent i; punct ":"] ++ print_ty t ++ opt_list (fun e => punct "=" :: print_expr e) d
  end.
Definition print_params (g : generics) : list ttree :=
  match g_params g with
  | [] => []
  | ps => punct "<" :: commas (map print_param ps) ++ [punct ">"]
  end.
Definition print_wpred (w : wpred) : list ttree :=
  match w with
  | WLt lt bs => print_lt lt ++ punct ":" :: sep_by [punct "+"] (map print_lt bs)
  | WTy lts t bs => print_for lts ++ print_ty t ++ punct ":" :: sep_by [punct "+"] (map print_bound bs)
  end.
Definition print_where (g : generics) : list ttree :=
  match g_where g with
  | None | Some [] => []
  | Some ws => t_id "where" :: commas (map print_wpred ws)
  end.

(** Definitions (derive.rs:376-408, 473-492, 822-830). *)
Definition print_field (f : field) : list ttree :=
  print_vis (f_vis f) ++ opt_list (fun i => [TIdent i; punct ":"]) (f_ident f) ++ print_ty (f_ty f).
Definition print_fields (fs : fields) : list ttree :=
  match fs with
  | FNamed l => group Brace (commas (map print_field l))
  | FUnnamed l => group Paren (commas (map print_field l))
  | FUnit => []
  end.
Definition print_struct (v : vis) (i : ident) (g : generics) (fs : fields) : list ttree :=
  print_vis v ++ [t_id "struct"; TIdent i] ++ print_params g ++
  match fs with
  | FNamed _ => print_where g ++ print_fields fs
  | _ => print_fields fs ++ print_where g ++ [punct ";"]
  end.
Definition print_enum (v : vis) (i : ident) (g : generics) (vs : list variant) : list ttree :=
  print_vis v ++ [t_id "enum"; TIdent i] ++ print_params g ++ print_where g ++
  group Brace (commas (map (fun x => TIdent (v_ident x) :: print_fields (v_fields x)) vs)).

(** Bodies (derive.rs:410-421, 494-508, 550-558, 603-627, 670-687, 873-883, 990-1012). *)
Definition print_atom (a : atom) : list ttree :=
  match a with
  | AVar x => [TIdent x]
  | AMethod x m => [TIdent x; punct "."; TIdent m; TGroup Paren []]
  | ARefMutDeref x => [punct "&"; t_id "mut"; punct "*"; TIdent x]
  | ACall f args => print_ids f ++ group Paren (commas (map (fun x => [TIdent x]) args))
  | APath p => print_ids p
  end.
Definition print_init (x : option ident * atom) : list ttree :=
  opt_list (fun i => [TIdent i; punct ":"]) (fst x) ++ print_atom (snd x).
Definition print_rhs (r : rhs) : list ttree :=
  match r with
  | RAtom a => print_atom a
  | RLit p None _ => print_ids p
  | RLit p (Some d) fs => print_ids p ++ group d (commas (map print_init fs))
  end.
Definition print_pat (p : pat) : list ttree :=
  match p with
  | PBind x => [TIdent x]
  | PLit p None _ => print_ids p
  | PLit p (Some d) bs => print_ids p ++ group d (commas (map (fun x => [TIdent x]) bs))
  end.
Fixpoint print_stmt (s : stmt) : list ttree :=
  match s with
  | SLet p t r =>
    t_id "let" :: print_pat p ++ opt_list (fun t => punct ":" :: print_ty t) t ++
    punct "=" :: print_rhs r ++ [punct ";"]
  | SExpr a => print_atom a ++ [punct ";"]
  | SBlock ss => group Brace (flat_map print_stmt ss)
  end.
(** An arm is [pat => rhs,] or, with statements, [pat => { .. }]. *)
Definition print_arm (a : arm) : list ttree :=
  print_pat (arm_pat a) ++ [TPunct "=" true; punct ">"] ++
  match arm_stmts a with
  | [] => print_rhs (arm_tail a) ++ [t_comma]
  | ss => group Brace (flat_map print_stmt ss ++ print_rhs (arm_tail a))
  end.
Definition print_body (b : body) : list ttree :=
  match b with
  | BTail ss t => flat_map print_stmt ss ++ opt_list print_rhs t
  | BMatch ss a arms =>
    flat_map print_stmt ss ++ t_id "match" :: print_atom a ++ group Brace (flat_map print_arm arms)
  end.

(** Methods and impls (derive.rs:866-931, 966-1032).  The body of a method with
    statements is an [unsafe] block. *)
Definition print_method (as_ : list gattr) (m : method) : list ttree :=
  flat_map print_gattr as_ ++ print_vis (m_vis m) ++ (if m_unsafe m then [t_id "unsafe"] else []) ++ [t_id "fn"; TIdent (m_name m)] ++
  match m_lts m with [] => [] | l => punct "<" :: commas (map print_lt l) ++ [punct ">"] end ++
  group Paren (commas
    (match m_self m with
     | RecvTyped t => t_id "self" :: punct ":" :: print_ty t
     | RecvRefMut => [punct "&"; t_id "mut"; t_id "self"]
     end :: map (fun p => TIdent (fst p) :: punct ":" :: print_ty (snd p)) (m_params m))) ++
  opt_list (fun t => t_arrow ++ print_ty t) (m_ret m) ++
  group Brace (match m_body m with
               | BTail [] None => []
               | b => t_id "unsafe" :: group Brace (print_body b)
               end).
Definition print_impl (as_ : list gattr) (im : impl) : list ttree :=
  (if i_unsafe im then [t_id "unsafe"] else []) ++ t_id "impl" :: print_params (i_generics im) ++
  opt_list (fun p => print_path p ++ [t_id "for"]) (i_trait im) ++ print_ty (i_self im) ++
  print_where (i_generics im) ++ group Brace (flat_map (print_method as_) (i_methods im)).

(** [__assert_not_repr_packed] (derive.rs:1119-1142). *)
Definition print_member (m : member) : list ttree :=
  [t_id "let"; t_id "_"; punct "="; punct "&"; t_id "this"; punct ".";
   match m with MNamed i => TIdent i | MIndex n => TLit (string_of_nat n) end; punct ";"].
Definition print_oitem (o : oitem) (mk : marks) : list ttree :=
  flat_map print_gattr (mk_item mk) ++
  match o with
  | OStruct v i g fs => print_struct v i g fs
  | OEnum v i g vs => print_enum v i g vs
  | OImpl im => print_impl (mk_method mk) im
  | OTrait i => [t_id "trait"; TIdent i; TGroup Brace []]
  | OAssert g t ms =>
    [t_id "fn"; t_id "__assert_not_repr_packed"] ++ print_params g ++
    group Paren (t_id "this" :: punct ":" :: punct "&" :: print_ty t) ++ print_where g ++
    group Brace (flat_map print_member ms)
  | OExternCrate a b => [t_id "extern"; t_id "crate"; TIdent a; t_id "as"; TIdent b; punct ";"]
  end.
(** The output of the derive (derive.rs:66-108). *)
Definition print_expansion (e : marked_expansion) : list ttree :=
  flat_map (fun p => print_oitem (fst p) (snd p)) (me_exposed e) ++
  flat_map print_gattr (me_const e) ++
  [t_id "const"; t_id "_"; punct ":"; TGroup Paren []; punct "=";
   TGroup Brace (flat_map (fun p => print_oitem (fst p) (snd p)) (me_scoped e)); punct ";"].

(** ** [#[pinned_drop]] *)
Fixpoint print_bpat (p : bpat) : list ttree :=
  match p with
  | QWild => [t_id "_"]
  | QBind m x => (if m then [t_id "mut"] else []) ++ [TIdent x]
  | QPath q p => print_expr (EPath q p)
  | QStruct p fs => print_path p ++ group Brace (commas (map (fun f => TIdent (fst f) :: punct ":" :: print_bpat (snd f)) fs))
  | QTupleStruct p l => print_path p ++ group Paren (commas (map print_bpat l))
  | QTuple l => group Paren (commas (map print_bpat l))
  | QMacro m ts => print_ids m ++ [punct "!"; TGroup Paren ts]
  end.
Definition print_fnarg (a : fnarg) : list ttree :=
  match a with
  | FRecv _ r m c =>
    opt_list (fun lt => punct "&" :: opt_list print_lt lt) r ++ (if m then [t_id "mut"] else []) ++
    t_id "self" :: opt_list (fun t => punct ":" :: print_ty t) c
  | FTyped _ p t => print_bpat p ++ punct ":" :: print_ty t
  end.
Definition print_sig (s : fsig) : list ttree :=
  (if fs_const s then [t_id "const"] else []) ++ (if fs_async s then [t_id "async"] else []) ++
  (if fs_unsafe s then [t_id "unsafe"] else []) ++ (if fs_abi s then [t_id "extern"] else []) ++
  [t_id "fn"; TIdent (fs_ident s)] ++ print_params (fs_generics s) ++
  group Paren (commas (map print_fnarg (fs_inputs s))) ++
  opt_list (fun t => t_arrow ++ print_ty t) (fs_out s) ++ print_where (fs_generics s).
Fixpoint print_bexpr (e : bexpr) : list ttree :=
  match e with
  | XPath q p => print_expr (EPath q p)
  | XLit s => [TLit s]
  | XCall f l => print_bexpr f ++ group Paren (commas (map print_bexpr l))
  | XMethod e m targs l =>
    print_bexpr e ++ punct "." :: TIdent m ::
    (match targs with [] => [] | _ => t_colon2 ++ punct "<" :: commas (map print_garg targs) ++ [punct ">"] end) ++
    group Paren (commas (map print_bexpr l))
  | XField e i => print_bexpr e ++ [punct "."; TIdent i]
  | XStruct p fs base =>
    print_path p ++ group Brace (commas (map (fun f => TIdent (fst f) :: punct ":" :: print_bexpr (snd f)) fs ++
      match base with Some b => [punct "." :: punct "." :: print_bexpr b] | None => [] end))
  | XUnary op e => TLit op :: print_bexpr e
  | XBinary op a b => print_bexpr a ++ TLit op :: print_bexpr b
  | XCast e t => print_bexpr e ++ t_id "as" :: print_ty t
  | XBlock l => group Brace (flat_map print_bstmt l)
  | XMatch e arms =>
    t_id "match" :: print_bexpr e ++
    group Brace (flat_map (fun a => print_bpat (fst a) ++ [TPunct "=" true; punct ">"] ++ print_bexpr (snd a) ++ [t_comma]) arms)
  | XClosure ps e =>
    punct "|" :: commas (map (fun p => print_bpat (fst p) ++ opt_list (fun t => punct ":" :: print_ty t) (snd p)) ps) ++
    punct "|" :: print_bexpr e
  | XMacro m ts => print_ids m ++ [punct "!"; TGroup Paren ts]
  end
with print_bstmt (s : bstmt) : list ttree :=
  match s with
  | YLet p t e =>
    t_id "let" :: print_bpat p ++ opt_list (fun t => punct ":" :: print_ty t) t ++
    (match e with Some e => punct "=" :: print_bexpr e | None => [] end) ++ [punct ";"]
  | YExpr e => print_bexpr e ++ [punct ";"]
  | YFn at_ v s b => flat_map print_attr at_ ++ print_vis v ++ print_sig s ++ group Brace (flat_map print_bstmt b)
  | YMacroRules x ts => [t_id "macro_rules"; punct "!"; TIdent x; TGroup Brace ts]
  | YItem x ts => TIdent x :: ts
  end.
Definition print_impl_item (i : impl_item) : list ttree :=
  match i with
  | IIFn m => flat_map print_attr (mt_attrs m) ++ print_vis (mt_vis m) ++ print_sig (mt_sig m) ++ group Brace (flat_map print_bstmt (mt_block m))
  | IIConst i => [t_id "const"; TIdent i]
  | IIType i => [t_id "type"; TIdent i]
  | IIOther => []
  end.
Definition print_item_impl (im : item_impl) : list ttree :=
  flat_map print_attr (im_attrs im) ++
  (if im_unsafe im then [t_id "unsafe"] else []) ++ t_id "impl" :: print_params (im_generics im) ++
  opt_list (fun p : bool * path => (if fst p then [punct "!"] else []) ++ print_path (snd p) ++ [t_id "for"]) (im_trait im) ++
  print_ty (im_self im) ++ print_where (im_generics im) ++ group Brace (flat_map print_impl_item (im_items im)).
