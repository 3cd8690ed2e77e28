(** Model of /repo/pin-project-internal/src/pin_project/derive.rs. *)
From Coq Require Import String Ascii List Bool Arith.
From Verif Require Import Base Syntax ModelArgs ModelUtils.
Import ListNotations.
Open Scope string_scope.
Open Scope list_scope.

(** ** Names the derive creates ([format_ident!] drops [r#]) *)
Definition id_proj (i : ident) : ident := I ("__" ++ name i ++ "Projection").            (* 241 *)
Definition id_proj_ref (i : ident) : ident := I ("__" ++ name i ++ "ProjectionRef").     (* 242 *)
Definition id_proj_own (i : ident) : ident := I ("__" ++ name i ++ "ProjectionOwned").   (* 230 *)
Definition id_unpin (i : ident) : ident := I ("__" ++ name i).                           (* 797 *)
Definition id_drop_trait (i : ident) : ident := I (name i ++ "MustNotImplDrop").         (* 905 *)
Definition id_binding (n : nat) : ident := I ("_" ++ string_of_nat n).                   (* 590 *)
Definition id_field (n : nat) : ident := I ("__field" ++ string_of_nat n).               (* 765 *)
Definition id_lifetime (n : nat) : ident := I ("__lifetime" ++ string_of_nat n).         (* 791 *)

(** Paths into the support crate: through the [extern crate] alias of the const
    scope, and absolute. *)
Definition pp (l : list string) : list ident := map I ("_pin_project" :: l).
Definition pp_priv (s : string) : list ident := pp ["__private"; s].
Definition pp_path (l : list string) (a : gargs) : path :=
  Path false (map seg1 ("_pin_project" :: removelast l) ++ [Seg (I (last l "")) a]).
Definition pp_priv_ty (s : string) (a : gargs) : ty := TyPath None (pp_path ["__private"; s] a).
Definition abs_priv_ty (s : string) (a : gargs) : ty :=
  TyPath None (Path true [seg1 "pin_project"; seg1 "__private"; Seg (I s) a]).
Definition targ (t : ty) : gargs := GAngle false [ATy t].

(** ** [Context] (derive.rs:171-300) *)
Inductive type_kind : Type := KEnum | KStruct.

Record context : Type := mkCx {
  cx_kind : type_kind;
  cx_args : args;
  (* original type; [cx_generics] has its where clause made explicit (225) *)
  cx_attrs : list attr;
  cx_vis : vis;
  cx_ident : ident;
  cx_generics : generics;
  (* projected types *)
  cx_pvis : vis;
  cx_mut_ident : ident;
  cx_ref_ident : ident;
  cx_own_ident : ident;
  cx_lifetime : string;
  cx_pgenerics : generics;
  cx_pwhere : list wpred
}.

Definition where_of (g : generics) : list wpred :=
  match g_where g with Some l => l | None => [] end.
Definition make_where_clause (g : generics) : generics :=
  mkGenerics (g_params g) (Some (where_of g)).
Definition push_where (g : generics) (w : wpred) : generics :=
  mkGenerics (g_params g) (Some (where_of g ++ [w])).

Definition opt_or (o : option ident) (d : ident) : ident :=
  match o with Some i => i | None => d end.

(** The name clash check (201-207). *)
Definition name_clash (a : args) (i : ident) : option ident :=
  find (fun n => ident_eqb n i)
    (flat_map (fun o => match o with Some n => [n] | None => [] end)
       [ar_project a; ar_project_ref a; pr_ident (ar_project_replace a)]).

(** [Context::new] (193-253). *)
Definition context_new (attrs : list attr) (v : vis) (i : ident) (g : generics) (k : type_kind)
  : res context :=
  do a <- parse_args attrs;
  match name_clash a i with
  | Some n => Err ("name `" ++ ident_str n ++ "` is the same as the original type name")
  | None =>
    let lifetime := determine_lifetime_name "'pin" g in
    let '(pgenerics, pred) := insert_lifetime_and_bound lifetime g i g in
    Ok {| cx_kind := k; cx_args := a; cx_attrs := attrs; cx_vis := v; cx_ident := i;
          cx_generics := make_where_clause g;
          cx_pvis := determine_visibility v;
          cx_mut_ident := opt_or (ar_project a) (id_proj i);
          cx_ref_ident := opt_or (ar_project_ref a) (id_proj_ref i);
          cx_own_ident := opt_or (pr_ident (ar_project_replace a)) (id_proj_own i);
          cx_lifetime := lifetime;
          cx_pgenerics := pgenerics;
          cx_pwhere := where_of g ++ [pred] |}
  end.

(** [#generics] printed at a type definition: lifetimes first, defaults kept,
    and the where clause printed separately ([w]). *)
Definition def_generics (g : generics) (w : list wpred) : generics :=
  mkGenerics (lts_first (g_params g)) (Some w).
(** [split_for_impl]: header parameters and where clause of an impl. *)
Definition impl_generics (g : generics) : generics :=
  mkGenerics (impl_params g) (g_where g).

(** ** Validation *)

Definition fields_is_empty (fs : fields) : bool :=
  match fields_list fs with [] => true | _ => false end.

(** [validate_struct] (310-319). *)
Definition validate_struct (fs : fields) : res unit :=
  if fields_is_empty fs then
    Err "#[pin_project] attribute may not be used on structs with zero fields"
  else Ok tt.

(** The fold of [validate_enum] (328-338). *)
Fixpoint validate_variants (has_field : bool) (vs : list variant) : res bool :=
  match vs with
  | [] => Ok has_field
  | v :: r =>
    if v_disc v then
      Err "#[pin_project] attribute may not be used on enums with discriminants"
    else if is_some (attrs_find (v_attrs v) "pin") then
      Err "#[pin] attribute may only be used on fields of structs or variants"
    else if fields_is_empty (v_fields v) then validate_variants has_field r
    else validate_variants true r
  end.
(** [validate_enum] (321-344). *)
Definition validate_enum (vs : list variant) : res unit :=
  match vs with
  | [] => Err "#[pin_project] attribute may not be used on enums without variants"
  | _ =>
    do has_field <- validate_variants false vs;
    if has_field : bool then Ok tt
    else Err "#[pin_project] attribute may not be used on enums with zero fields"
  end.

(** ** [repr] lists

    [list.parse_args_with(Punctuated::<Meta, Token![,]>::parse_terminated)]
    (1045).  A meta is a path followed by nothing, by a delimited group, or by
    [=] and a value.  Simplification: the value is any non-empty run of tokens
    without a comma ([syn] insists on an expression). *)
Inductive mkind : Type := MkPath | MkList | MkNameValue.
Record rmeta : Type := mkRMeta { rm_lead : bool; rm_path : list ident; rm_kind : mkind }.

(** Words allowed as path segments in mod style: identifiers and
    [crate], [self], [super], [Self]. *)
Definition accept_mod_seg (i : ident) : bool :=
  accept_as_ident i ||
  existsb (ident_is i) ["crate"; "self"; "super"; "Self"].

Fixpoint parse_mod_segs (ts : list ttree) : res (list ident * list ttree) :=
  match ts with
  | TIdent i :: r =>
    if accept_mod_seg i then
      match r with
      | TPunct c true :: TPunct c' _ :: r' =>
        if Ascii.eqb c ":" && Ascii.eqb c' ":" then
          do '(l, r2) <- parse_mod_segs r'; Ok (i :: l, r2)
        else Ok ([i], r)
      | _ => Ok ([i], r)
      end
    else Err "expected path"
  | _ => Err "expected path"
  end.
Definition parse_mod_path (ts : list ttree) : res ((bool * list ident) * list ttree) :=
  match ts with
  | TPunct c true :: TPunct c' _ :: r =>
    if Ascii.eqb c ":" && Ascii.eqb c' ":" then
      do '(l, r2) <- parse_mod_segs r; Ok ((true, l), r2)
    else Err "expected path"
  | _ => do '(l, r2) <- parse_mod_segs ts; Ok ((false, l), r2)
  end.
Fixpoint take_until_comma (ts : list ttree) : list ttree * list ttree :=
  match ts with
  | TPunct c s :: r =>
    if Ascii.eqb c "," then ([], ts)
    else let '(a, b) := take_until_comma r in (TPunct c s :: a, b)
  | t :: r => let '(a, b) := take_until_comma r in (t :: a, b)
  | [] => ([], [])
  end.
Definition parse_meta (ts : list ttree) : res (rmeta * list ttree) :=
  do '((lead, p), r) <- parse_mod_path ts;
  match r with
  | TGroup Paren _ :: r' | TGroup Bracket _ :: r' | TGroup Brace _ :: r' =>
    Ok (mkRMeta lead p MkList, r')
  | TPunct c _ :: r' =>
    if Ascii.eqb c "=" then
      match take_until_comma r' with
      | ([], _) => Err "expected expression"
      | (_ :: _, r2) => Ok (mkRMeta lead p MkNameValue, r2)
      end
    else Ok (mkRMeta lead p MkPath, r)
  | _ => Ok (mkRMeta lead p MkPath, r)
  end.
(** [Punctuated::parse_terminated]; every round consumes a token, so
    [S (length ts)] rounds suffice. *)
Fixpoint parse_metas (fuel : nat) (ts : list ttree) : res (list rmeta) :=
  match fuel with
  | 0 => Panic "fuel"
  | S n =>
    match ts with
    | [] => Ok []
    | _ =>
      do '(m, r) <- parse_meta ts;
      match r with
      | [] => Ok [m]
      | _ => do r2 <- parse_punct "," r; do l <- parse_metas n r2; Ok (m :: l)
      end
    end
  end.

Definition rmeta_is (m : rmeta) (s : string) : bool := path_is_ident (rm_lead m) (rm_path m) s.

(** The check of one [repr] list (1045-1063). *)
Definition packed_msg (is_struct : bool) (m : rmeta) : string :=
  if is_struct then
    match rm_kind m with
    | MkNameValue => "#[repr(packed)] attribute should not be name-value pair"
    | _ => "#[pin_project] attribute may not be used on #[repr(packed)] types"
    end
  else "#[repr(packed)] attribute should be applied to a struct or union".
Fixpoint check_repr_metas (is_struct : bool) (l : list rmeta) : res unit :=
  match l with
  | [] => Ok tt
  | m :: r => if rmeta_is m "packed" then Err (packed_msg is_struct m) else check_repr_metas is_struct r
  end.
Fixpoint check_reprs (is_struct : bool) (l : list attr) : res unit :=
  match l with
  | [] => Ok tt
  | a :: r =>
    do _ <-
      match a_meta a with
      | MList _ ts =>
        if attr_is a "repr" then
          do ms <- parse_metas (S (length ts)) ts; check_repr_metas is_struct ms
        else Ok tt
      | _ => Ok tt
      end;
    check_reprs is_struct r
  end.

(** The field references of the generated check (1117-1130). *)
Definition field_member (nf : nat * field) : member :=
  match f_ident (snd nf) with Some i => MNamed i | None => MIndex (fst nf) end.

(** [ensure_not_packed] (1041-1143). *)
Definition ensure_not_packed (cx : context) (fs : option fields) : res (list oitem) :=
  do _ <- check_reprs (is_some fs) (cx_attrs cx);
  match fs with
  | None => Ok []
  | Some fs =>
    Ok [OAssert (impl_generics (cx_generics cx)) (ty_applied (cx_ident cx) (cx_generics cx))
          (map field_member (enumerate (fields_list fs)))]
  end.

(** ** Fields *)

Record projected_fields : Type := mkPF {
  pf_pat : list ident;
  pf_body : list (option ident * atom);
  pf_move : list (option ident * atom);
  pf_fields : list field;
  pf_ref_fields : list field;
  pf_own_fields : list field;
  pf_pinned_tys : list ty;       (* pushed to [cx.pinned_fields] *)
  pf_pinned_bindings : list ident
}.
Definition pf_empty : projected_fields := mkPF [] [] [] [] [] [] [] [].

(** Field types of the projected types (592-629). *)
Definition ty_pin_mut (lt : string) (t : ty) : ty := abs_priv_ty "Pin" (targ (TyRef (Some lt) true (TyParen t))).
Definition ty_pin_ref (lt : string) (t : ty) : ty := abs_priv_ty "Pin" (targ (TyRef (Some lt) false (TyParen t))).
Definition ty_phantom (t : ty) : ty := abs_priv_ty "PhantomData" (targ t).
Definition ty_mut (lt : string) (t : ty) : ty := TyRef (Some lt) true (TyParen t).
Definition ty_ref (lt : string) (t : ty) : ty := TyRef (Some lt) false (TyParen t).

(** The loop of [visit_fields] (589-629), from field number [n] on. *)
Fixpoint visit_field_list (lt : string) (n : nat) (l : list field) : res projected_fields :=
  match l with
  | [] => Ok pf_empty
  | f :: r =>
    let binding := opt_or (f_ident f) (id_binding n) in
    let mk := fun t => mkField [] (f_vis f) (f_ident f) t in
    do pos <- position_exact (f_attrs f) "pin";
    do pf <- visit_field_list lt (S n) r;
    let '(mkPF ppat pbody pmove pfs prfs pofs ptys pbs) := pf in
    if is_some pos then
      Ok (mkPF (binding :: ppat)
            ((f_ident f, ACall (pp ["__private"; "Pin"; "new_unchecked"]) [binding]) :: pbody)
            ((f_ident f, APath (pp_priv "PhantomData")) :: pmove)
            (mk (ty_pin_mut lt (f_ty f)) :: pfs)
            (mk (ty_pin_ref lt (f_ty f)) :: prfs)
            (mk (ty_phantom (f_ty f)) :: pofs)
            (f_ty f :: ptys)
            (binding :: pbs))
    else
      Ok (mkPF (binding :: ppat)
            ((None, AVar binding) :: pbody)
            ((f_ident f, ACall (pp ["__private"; "ptr"; "read"]) [binding]) :: pmove)
            (mk (ty_mut lt (f_ty f)) :: pfs)
            (mk (ty_ref lt (f_ty f)) :: prfs)
            (mk (f_ty f) :: pofs)
            ptys pbs)
  end.

(** [Delimiter] of the fields; [None] for unit. *)
Definition fields_delim (fs : fields) : option delim :=
  match fs with FNamed _ => Some Brace | FUnnamed _ => Some Paren | FUnit => None end.
Definition rebuild_fields (fs : fields) (l : list field) : fields :=
  match fs with FNamed _ => FNamed l | FUnnamed _ => FUnnamed l | FUnit => FUnit end.

(** [visit_fields] (571-648) for named and unnamed fields; for unit variants the
    default of 532-535. *)
Definition visit_fields (cx : context) (fs : fields) : res projected_fields :=
  visit_field_list (cx_lifetime cx) 0 (fields_list fs).

(** [proj_own_body] (653-688): statements and tail. *)
Definition guard_stmt (b : ident) : stmt :=
  SLet (PBind (I "__guard")) None
    (RAtom (ACall (pp ["__private"; "UnsafeDropInPlaceGuard"; "new"]) [b])).
Definition proj_own_body (own : list ident) (d : option delim)
    (moves : list (option ident * atom)) (pinned : list ident) : list stmt * rhs :=
  ([SLet (PBind (I "__result")) None (RLit own d moves);
    SBlock (map guard_stmt (rev pinned))],
   RAtom (AVar (I "__result"))).

(** ** Methods *)

Definition recv_pin (lt : option string) (m : bool) : receiver :=
  RecvTyped (pp_priv_ty "Pin" (targ (TyRef lt m ty_self))).

(** The method templates of [make_proj_impl] (966-1012). *)
Definition method_project (cx : context) (b : body) : method :=
  mkMethod (cx_pvis cx) false (I "project") [cx_lifetime cx]
    (recv_pin (Some (cx_lifetime cx)) true) []
    (Some (ty_applied (cx_mut_ident cx) (cx_pgenerics cx))) b.
Definition method_project_ref (cx : context) (b : body) : method :=
  mkMethod (cx_pvis cx) false (I "project_ref") [cx_lifetime cx]
    (recv_pin (Some (cx_lifetime cx)) false) []
    (Some (ty_applied (cx_ref_ident cx) (cx_pgenerics cx))) b.
Definition replace_prologue : list stmt :=
  [SLet (PBind (I "__self_ptr")) (Some (TyPtr true ty_self))
     (RAtom (AMethod (I "self") (I "get_unchecked_mut")));
   SLet (PBind (I "__guard")) None
     (RAtom (ACall (pp ["__private"; "UnsafeOverwriteGuard"; "new"])
              [I "__self_ptr"; I "__replacement"]))].
Definition add_prologue (ss : list stmt) (b : body) : body :=
  match b with
  | BTail ss' t => BTail (ss ++ ss') t
  | BMatch ss' a arms => BMatch (ss ++ ss') a arms
  end.
Definition method_project_replace (cx : context) (b : body) : method :=
  mkMethod (cx_pvis cx) false (I "project_replace") []
    (recv_pin None true) [(I "__replacement", ty_self)]
    (Some (ty_applied (cx_own_ident cx) (cx_generics cx)))
    (add_prologue replace_prologue b).

(** [make_proj_impl] (942-1033). *)
Definition make_proj_impl (cx : context) (b bref bown : body) : oitem :=
  let a := cx_args cx in
  let en := match cx_kind cx with KEnum => true | KStruct => false end in
  let project := if en && negb (is_some (ar_project a)) then [] else [method_project cx b] in
  let project_ref :=
    if en && negb (is_some (ar_project_ref a)) then [] else [method_project_ref cx bref] in
  let project_replace :=
    if pr_span (ar_project_replace a) then
      if en && negb (is_some (pr_ident (ar_project_replace a))) then []
      else [method_project_replace cx bown]
    else [] in
  OImpl (mkImpl false (impl_generics (cx_generics cx)) None
           (ty_applied (cx_ident cx) (cx_generics cx))
           (project ++ project_ref ++ project_replace)).

(** ** Structs: [parse_struct] (346-426) *)

Record generated : Type := mkGen { gen_exposed : list oitem; gen_scoped : list oitem; gen_pinned : list ty }.
(** [GenerateTokens::extend] (58-64). *)
Definition gen_extend (expose : bool) (l : list oitem) (g : generated) : generated :=
  if expose then mkGen (gen_exposed g ++ l) (gen_scoped g) (gen_pinned g)
  else mkGen (gen_exposed g) (gen_scoped g ++ l) (gen_pinned g).

Definition parse_struct (cx : context) (fs : fields) : res generated :=
  do packed_check <- ensure_not_packed cx (Some fs);
  do _ <- validate_struct fs;
  do pf <- match fs with
           | FUnit => Panic "internal error: entered unreachable code"
           | _ => visit_fields cx fs
           end;
  let a := cx_args cx in
  let d := fields_delim fs in
  let pdef := def_generics (cx_pgenerics cx) (cx_pwhere cx) in
  let odef := def_generics (cx_generics cx) (where_of (cx_generics cx)) in
  let pat := PLit [I "Self"] d (pf_pat pf) in
  let b := BTail [SLet pat None (RAtom (AMethod (I "self") (I "get_unchecked_mut")))]
             (Some (RLit [cx_mut_ident cx] d (pf_body pf))) in
  let bref := BTail [SLet pat None (RAtom (AMethod (I "self") (I "get_ref")))]
             (Some (RLit [cx_ref_ident cx] d (pf_body pf))) in
  let '(own_ss, own_tail) := proj_own_body [cx_own_ident cx] d (pf_move pf) (pf_pinned_bindings pf) in
  let bown := BTail (SLet pat None (RAtom (ARefMutDeref (I "__self_ptr"))) :: own_ss) (Some own_tail) in
  let g0 := mkGen [] [] (pf_pinned_tys pf) in
  let g1 := gen_extend (is_some (ar_project a))
              [OStruct (cx_pvis cx) (cx_mut_ident cx) pdef (rebuild_fields fs (pf_fields pf))] g0 in
  let g2 := gen_extend (is_some (ar_project_ref a))
              [OStruct (cx_pvis cx) (cx_ref_ident cx) pdef (rebuild_fields fs (pf_ref_fields pf))] g1 in
  let g3 := if pr_span (ar_project_replace a) then
              gen_extend (is_some (pr_ident (ar_project_replace a)))
                [OStruct (cx_pvis cx) (cx_own_ident cx) odef (rebuild_fields fs (pf_own_fields pf))] g2
            else g2 in
  let g4 := gen_extend false [make_proj_impl cx b bref bown] g3 in
  Ok (gen_extend false packed_check g4).

(** ** Enums: [visit_variants] (514-569) and [parse_enum] (428-512) *)

Record projected_variants : Type := mkPV {
  pv_variants : list variant;
  pv_ref_variants : list variant;
  pv_own_variants : list variant;
  pv_arms : list arm;
  pv_ref_arms : list arm;
  pv_own_arms : list arm;
  pv_pinned : list ty
}.
Fixpoint visit_variants (cx : context) (vs : list variant) : res projected_variants :=
  match vs with
  | [] => Ok (mkPV [] [] [] [] [] [] [])
  | v :: r =>
    let fs := v_fields v in
    let d := fields_delim fs in
    do pf <- visit_fields cx fs;
    do rest <- visit_variants cx r;
    let mk := fun l => mkVariant [] (v_ident v) (rebuild_fields fs l) false in
    let pat := PLit [I "Self"; v_ident v] d (pf_pat pf) in
    let '(own_ss, own_tail) :=
      proj_own_body [cx_own_ident cx; v_ident v] d (pf_move pf) (pf_pinned_bindings pf) in
    Ok (mkPV (mk (pf_fields pf) :: pv_variants rest)
          (mk (pf_ref_fields pf) :: pv_ref_variants rest)
          (mk (pf_own_fields pf) :: pv_own_variants rest)
          (mkArm pat [] (RLit [cx_mut_ident cx; v_ident v] d (pf_body pf)) :: pv_arms rest)
          (mkArm pat [] (RLit [cx_ref_ident cx; v_ident v] d (pf_body pf)) :: pv_ref_arms rest)
          (mkArm pat own_ss own_tail :: pv_own_arms rest)
          (pf_pinned_tys pf ++ pv_pinned rest))
  end.

Definition parse_enum (cx : context) (vs : list variant) : res generated :=
  let a := cx_args cx in
  match ar_project_replace a with
  | PRUnnamed => Err "`project_replace` argument requires a value when used on enums"
  | _ =>
    do _ <- ensure_not_packed cx None;
    do _ <- validate_enum vs;
    do pv <- visit_variants cx vs;
    let pdef := def_generics (cx_pgenerics cx) (cx_pwhere cx) in
    let odef := def_generics (cx_generics cx) (where_of (cx_generics cx)) in
    let g0 := mkGen [] [] (pv_pinned pv) in
    let g1 := if is_some (ar_project a)
              then gen_extend true [OEnum (cx_pvis cx) (cx_mut_ident cx) pdef (pv_variants pv)] g0
              else g0 in
    let g2 := if is_some (ar_project_ref a)
              then gen_extend true [OEnum (cx_pvis cx) (cx_ref_ident cx) pdef (pv_ref_variants pv)] g1
              else g1 in
    let g3 := if is_some (pr_ident (ar_project_replace a))
              then gen_extend true [OEnum (cx_pvis cx) (cx_own_ident cx) odef (pv_own_variants pv)] g2
              else g2 in
    let b := BMatch [] (AMethod (I "self") (I "get_unchecked_mut")) (pv_arms pv) in
    let bref := BMatch [] (AMethod (I "self") (I "get_ref")) (pv_ref_arms pv) in
    let bown := BMatch [] (ARefMutDeref (I "__self_ptr")) (pv_own_arms pv) in
    Ok (gen_extend false [make_proj_impl cx b bref bown] g3)
  end.

(** ** [Unpin] impls: [make_unpin_impl] (696-851) *)

Definition trait_bound (p : path) : bound := BTrait false [] p.
Definition tr_unpin : path := pp_path ["__private"; "Unpin"] GNone.
Definition tr_unsafe_unpin : path := pp_path ["UnsafeUnpin"] GNone.
Definition ty_pinned_fields_of (t : ty) : ty := pp_priv_ty "PinnedFieldsOf" (targ t).
Definition ty_wrapper (lt : string) (t : ty) : ty :=
  pp_priv_ty "Wrapper" (GAngle false [ALt lt; ATy t]).

Definition empty_impl (unsafe_ : bool) (g : generics) (tr : path) (t : ty) : oitem :=
  OImpl (mkImpl unsafe_ g (Some tr) t []).

(** [Generics::type_params] and [Generics::lifetimes]. *)
Definition type_params (g : generics) : list ident :=
  flat_map (fun p => match p with PTy i _ _ => [i] | _ => [] end) (g_params g).
Definition lifetimes (g : generics) : list string :=
  flat_map (fun p => match p with PLt lt _ => [lt] | _ => [] end) (g_params g).

(** A comma separated list of [PhantomData<T>] in parentheses: with one parameter this is a
    parenthesised type, otherwise a tuple (826). *)
Definition phantom_tuple (ps : list ident) : ty :=
  match map (fun i => pp_priv_ty "PhantomData" (targ (ty_ident i))) ps with
  | [t] => TyParen t
  | l => TyTuple l
  end.

(** Fields of the helper struct (764-794, 822-830). *)
Definition helper_fields (cx : context) (pinned : list ty) : list field :=
  let plain := fun i t => mkField [] VInherited (Some i) t in
  plain (I "__pin_project_use_generics")
    (pp_priv_ty "AlwaysUnpin"
       (GAngle false [ALt (cx_lifetime cx); ATy (phantom_tuple (type_params (cx_generics cx)))]))
  :: map (fun nt => plain (id_field (fst nt)) (snd nt)) (enumerate pinned)
  ++ map (fun nl => plain (id_lifetime (fst nl)) (TyRef (Some (snd nl)) false (TyTuple [])))
       (enumerate (lifetimes (cx_generics cx))).

Definition make_unpin_impl (cx : context) (pinned : list ty) : list oitem :=
  let self := ty_applied (cx_ident cx) (cx_generics cx) in
  let lt := cx_lifetime cx in
  match ar_unpin (cx_args cx) with
  | UUnsafe =>
    let g := push_where (cx_pgenerics cx)
               (WTy [] (ty_pinned_fields_of (ty_wrapper lt ty_self)) [trait_bound tr_unsafe_unpin]) in
    [empty_impl false (impl_generics g) tr_unpin self]
  | UNegative =>
    let g := push_where (cx_pgenerics cx)
               (WTy [] (ty_pinned_fields_of (ty_wrapper lt (pp_priv_ty "PhantomPinned" GNone)))
                  [trait_bound tr_unpin]) in
    [empty_impl false (impl_generics g) tr_unpin self;
     empty_impl true (impl_generics g) tr_unsafe_unpin self]
  | UDefault =>
    let helper := id_unpin (cx_ident cx) in
    let w := where_of (cx_generics cx) ++
             [WTy [] (ty_pinned_fields_of (ty_applied helper (cx_pgenerics cx)))
                [trait_bound tr_unpin]] in
    let g := mkGenerics (impl_params (cx_pgenerics cx)) (Some w) in
    [OStruct (cx_vis cx) helper
       (def_generics (cx_pgenerics cx) (where_of (cx_generics cx)))
       (FNamed (helper_fields cx pinned));
     empty_impl false g tr_unpin self;
     empty_impl true g tr_unsafe_unpin self]
  end.

(** ** Destructors: [make_drop_impl] (860-934) *)

Definition tr_drop : path := pp_path ["__private"; "Drop"] GNone.
Definition tr_pinned_drop : path := pp_path ["__private"; "PinnedDrop"] GNone.

Definition drop_body : body :=
  BTail
    [SLet (PBind (I "__pinned_self")) None
       (RAtom (ACall (pp ["__private"; "Pin"; "new_unchecked"]) [I "self"]));
     SExpr (ACall (pp ["__private"; "PinnedDrop"; "drop"]) [I "__pinned_self"])]
    None.

Definition make_drop_impl (cx : context) : list oitem :=
  let g := impl_generics (cx_generics cx) in
  let self := ty_applied (cx_ident cx) (cx_generics cx) in
  if ar_pinned_drop (cx_args cx) then
    [OImpl (mkImpl false g (Some tr_drop) self
       [mkMethod VInherited false (I "drop") [] RecvRefMut [] None drop_body])]
  else
    let tr := id_drop_trait (cx_ident cx) in
    [OTrait tr;
     OImpl (mkImpl false (mkGenerics [PTy (I "T") [trait_bound tr_drop] None] None)
              (Some (Path false [Seg tr GNone])) (ty_ident (I "T")) []);
     OImpl (mkImpl false g (Some (Path false [Seg tr GNone])) self []);
     OImpl (mkImpl false g (Some tr_pinned_drop) self
       [mkMethod VInherited true (I "drop") [] (recv_pin None true) [] None (BTail [] None)])].

(** ** [parse_derive] (20-49) and [GenerateTokens::into_tokens] (66-108) *)

Definition into_tokens (cx : context) (g : generated) : expansion :=
  mkExpansion (gen_exposed g)
    (OExternCrate (I "pin_project") (I "_pin_project") :: gen_scoped g
     ++ make_unpin_impl cx (gen_pinned g) ++ make_drop_impl cx).

(** The receiver type that replaces [Self] (29, 38). *)
Definition self_type (i : ident) (g : generics) : type_path := mkTypePath None (self_path i g).

Definition parse_derive (it : item) : res expansion :=
  match it with
  | ItStruct s0 =>
    let s := replace_struct (self_type (s_ident s0) (s_generics s0)) s0 in
    do cx <- context_new (s_attrs s) (s_vis s) (s_ident s) (s_generics s) KStruct;
    do g <- parse_struct cx (s_fields s);
    Ok (into_tokens cx g)
  | ItEnum e0 =>
    let e := replace_enum (self_type (e_ident e0) (e_generics e0)) e0 in
    do cx <- context_new (e_attrs e) (e_vis e) (e_ident e) (e_generics e) KEnum;
    do g <- parse_enum cx (e_variants e);
    Ok (into_tokens cx g)
  | ItOther => Err "#[pin_project] attribute may only be used on structs or enums"
  end.
