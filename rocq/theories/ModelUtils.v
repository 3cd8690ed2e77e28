(** Model of /repo/pin-project-internal/src/utils.rs. *)
From Coq Require Import String Ascii List Bool Arith.
From Verif Require Import Base Syntax.
Import ListNotations.
Open Scope string_scope.
Open Scope list_scope.

Definition opt_list {A B} (f : A -> list B) (o : option A) : list B :=
  match o with Some a => f a | None => [] end.

(** ** Lifetimes declared inside a syntax tree

    What [CollectLifetimes] collects when it visits a node (utils.rs:29-35):
    every [LifetimeParam], i.e. parameters and [for<..>] binders, not uses. *)
Fixpoint lts_ty (t : ty) : list string :=
  match t with
  | TyPath q p => match q with Some (t', _) => lts_ty t' | None => [] end ++ lts_path p
  | TyRef _ _ t' => lts_ty t'
  | TyPtr _ t' => lts_ty t'
  | TyTuple l => flat_map lts_ty l
  | TySlice t' => lts_ty t'
  | TyArray t' e => lts_ty t' ++ lts_expr e
  | TyFn lts l o => lts ++ flat_map lts_ty l ++ match o with Some t' => lts_ty t' | None => [] end
  | TyDyn bs => flat_map lts_bound bs
  | TyParen t' => lts_ty t'
  | TyNever => []
  | TyMacro _ _ => []
  end
with lts_path (p : path) : list string :=
  match p with Path _ segs => flat_map lts_seg segs end
with lts_seg (s : seg) : list string :=
  match s with Seg _ a => lts_gargs a end
with lts_gargs (a : gargs) : list string :=
  match a with
  | GNone => []
  | GAngle _ l => flat_map lts_garg l
  | GParen l o => flat_map lts_ty l ++ match o with Some t' => lts_ty t' | None => [] end
  end
with lts_garg (a : garg) : list string :=
  match a with
  | ALt _ => []
  | ATy t => lts_ty t
  | AConst e => lts_expr e
  | AAssoc _ t => lts_ty t
  end
with lts_bound (b : bound) : list string :=
  match b with
  | BLt _ => []
  | BTrait _ lts p => lts ++ lts_path p
  end
with lts_expr (e : expr) : list string :=
  match e with
  | EPath q p => match q with Some (t', _) => lts_ty t' | None => [] end ++ lts_path p
  | ELit _ => []
  | ECall f l => lts_expr f ++ flat_map lts_expr l
  | EMacro _ _ => []
  end.

Definition lts_param (p : gparam) : list string :=
  match p with
  | PLt lt _ => [lt]
  | PTy _ bs d => flat_map lts_bound bs ++ opt_list lts_ty d
  | PConst _ t d => lts_ty t ++ opt_list lts_expr d
  end.
Definition lts_wpred (w : wpred) : list string :=
  match w with
  | WLt _ _ => []
  | WTy lts t bs => lts ++ lts_ty t ++ flat_map lts_bound bs
  end.
Definition collect_lifetimes (g : generics) : list string :=
  flat_map lts_param (g_params g) ++ flat_map lts_wpred (opt_list (fun x => x) (g_where g)).

(** The search loop of [determine_lifetime_name] (utils.rs:42-44).  [fuel]
    bounds the iterations; the value used below suffices
    ([determine_lifetime_name_fuel] in ProofsUtils.v). *)
Fixpoint lifetime_loop (fuel : nat) (names : list string) (cur : string) : string :=
  if existsb (fun n => prefix cur n) names then
    match fuel with
    | 0 => cur
    | S k => lifetime_loop k names (cur ++ "_")
    end
  else cur.
Definition max_len (names : list string) : nat :=
  fold_right (fun n m => Nat.max (String.length n) m) 0 names.

(** [determine_lifetime_name] (utils.rs:28-45). *)
Definition determine_lifetime_name (start : string) (g : generics) : string :=
  let names := collect_lifetimes g in
  lifetime_loop (S (max_len names)) names start.

(** ** Generics *)

(** [insert_lifetime] (utils.rs:71-75). *)
Definition insert_lifetime (lt : string) (g : generics) : generics :=
  mkGenerics (PLt lt [] :: g_params g) (g_where g).

(** [Generics::split_for_impl().1] printed and parsed again as type arguments:
    lifetimes first, then types and consts, names only.  A const parameter is
    read back as a path type, as [syn] does. *)
Definition is_lt_param (p : gparam) : bool :=
  match p with PLt _ _ => true | _ => false end.
Definition param_arg (p : gparam) : garg :=
  match p with
  | PLt lt _ => ALt lt
  | PTy i _ _ => ATy (ty_ident i)
  | PConst i _ _ => ATy (ty_ident i)
  end.
Definition lts_first (l : list gparam) : list gparam :=
  filter is_lt_param l ++ filter (fun p => negb (is_lt_param p)) l.
Definition ty_generics (g : generics) : gargs :=
  match g_params g with
  | [] => GNone
  | ps => GAngle false (map param_arg (lts_first ps))
  end.
(** [#ident #ty_generics] as a path / type. *)
Definition self_path (i : ident) (g : generics) : path :=
  Path false [Seg i (ty_generics g)].
Definition ty_applied (i : ident) (g : generics) : ty :=
  TyPath None (self_path i g).

(** [Generics::split_for_impl().0]: parameters with bounds, without defaults,
    lifetimes first; with the where clause of [.2]. *)
Definition strip_default (p : gparam) : gparam :=
  match p with
  | PLt lt bs => PLt lt bs
  | PTy i bs _ => PTy i bs None
  | PConst i t _ => PConst i t None
  end.
Definition impl_params (g : generics) : list gparam :=
  map strip_default (lts_first (g_params g)).

(** [insert_lifetime_and_bound] (utils.rs:50-68): the new generics and the
    predicate [orig: lt]. *)
Definition insert_lifetime_and_bound (lt : string) (orig_generics : generics)
    (orig_ident : ident) (g : generics) : generics * wpred :=
  (insert_lifetime lt g,
   WTy [] (ty_applied orig_ident orig_generics) [BLt lt]).

(** [determine_visibility] (utils.rs:81-87). *)
Definition determine_visibility (v : vis) : vis :=
  match v with
  | VPub => VRestricted false [I "crate"]
  | _ => v
  end.

(** ** Attribute lookup *)

(** [SliceExt::position_exact] (utils.rs:121-133): the fold over the
    attributes with accumulator (index, previous position). *)
Fixpoint position_exact_from (k : nat) (prev : option nat) (s : string) (l : list attr)
  : res (option nat) :=
  match l with
  | [] => Ok prev
  | a :: r =>
    if attr_is a s then
      match prev with
      | Some _ => Err ("duplicate #[" ++ s ++ "] attribute")
      | None =>
        match a_meta a with
        | MPath => position_exact_from (S k) (Some k) s r
        | _ => Err "unexpected token in attribute"
        end
      end
    else position_exact_from (S k) prev s r
  end.
Definition position_exact (l : list attr) (s : string) : res (option nat) :=
  position_exact_from 0 None s l.

(** ** Printing types as tokens ([ToTokens]), needed where the receiver type is
    spliced into macro input (utils.rs:249-255). *)
Definition t_colon2 : list ttree := [TPunct ":" true; TPunct ":" false].
Definition t_arrow : list ttree := [TPunct "-" true; TPunct ">" false].
Definition t_id (s : string) : ttree := TIdent (I s).
Definition t_comma : ttree := TPunct "," false.
Definition drop_quote (s : string) : string :=
  match s with String _ r => r | EmptyString => EmptyString end.
Definition print_lt (s : string) : list ttree := [TPunct "'" true; t_id (drop_quote s)].
Fixpoint sep_by (sep : list ttree) (l : list (list ttree)) : list ttree :=
  match l with
  | [] => []
  | [x] => x
  | x :: r => x ++ sep ++ sep_by sep r
  end.
Definition print_for (lts : list string) : list ttree :=
  match lts with
  | [] => []
  | _ => [t_id "for"; TPunct "<" false] ++ sep_by [t_comma] (map print_lt lts) ++ [TPunct ">" false]
  end.

Fixpoint print_ty (t : ty) : list ttree :=
  match t with
  | TyPath q p =>
    match q with
    | None => print_path p
    | Some (t', n) =>
      [TPunct "<" false] ++ print_ty t' ++
      match n, p with
      | 0, Path lead segs =>
        [TPunct ">" false] ++ (if lead then t_colon2 else []) ++
        sep_by t_colon2 (map print_seg segs)
      | _, Path lead segs =>
        [t_id "as"] ++ (if lead then t_colon2 else []) ++
        sep_by t_colon2 (firstn n (map print_seg segs)) ++ [TPunct ">" false] ++
        flat_map (fun s => t_colon2 ++ s) (skipn n (map print_seg segs))
      end
    end
  | TyRef lt m t' =>
    [TPunct "&" false] ++ opt_list print_lt lt ++ (if m then [t_id "mut"] else []) ++ print_ty t'
  | TyPtr m t' => [TPunct "*" false; t_id (if m then "mut" else "const")] ++ print_ty t'
  | TyTuple l =>
    [TGroup Paren (match map print_ty l with
                   | [x] => x ++ [t_comma]
                   | xs => sep_by [t_comma] xs
                   end)]
  | TySlice t' => [TGroup Bracket (print_ty t')]
  | TyArray t' e => [TGroup Bracket (print_ty t' ++ [TPunct ";" false] ++ print_expr e)]
  | TyFn lts l o =>
    print_for lts ++ [t_id "fn"; TGroup Paren (sep_by [t_comma] (map print_ty l))] ++
    match o with Some t' => t_arrow ++ print_ty t' | None => [] end
  | TyDyn bs => [t_id "dyn"] ++ sep_by [TPunct "+" false] (map print_bound bs)
  | TyParen t' => [TGroup Paren (print_ty t')]
  | TyNever => [TPunct "!" false]
  | TyMacro m ts => sep_by t_colon2 (map (fun i => [TIdent i]) m) ++ [TPunct "!" false; TGroup Paren ts]
  end
with print_path (p : path) : list ttree :=
  match p with
  | Path lead segs => (if lead then t_colon2 else []) ++ sep_by t_colon2 (map print_seg segs)
  end
with print_seg (s : seg) : list ttree :=
  match s with Seg i a => TIdent i :: print_gargs a end
with print_gargs (a : gargs) : list ttree :=
  match a with
  | GNone => []
  | GAngle turbo l =>
    (if turbo then t_colon2 else []) ++
    [TPunct "<" false] ++ sep_by [t_comma] (map print_garg l) ++ [TPunct ">" false]
  | GParen l o =>
    [TGroup Paren (sep_by [t_comma] (map print_ty l))] ++
    match o with Some t' => t_arrow ++ print_ty t' | None => [] end
  end
with print_garg (a : garg) : list ttree :=
  match a with
  | ALt lt => print_lt lt
  | ATy t => print_ty t
  | AConst e => print_expr e
  | AAssoc i t => [TIdent i; TPunct "=" false] ++ print_ty t
  end
with print_bound (b : bound) : list ttree :=
  match b with
  | BLt lt => print_lt lt
  | BTrait maybe lts p => (if maybe then [TPunct "?" false] else []) ++ print_for lts ++ print_path p
  end
with print_expr (e : expr) : list ttree :=
  match e with
  | EPath q p =>
    match q with
    | None => print_path p
    | Some (t', n) =>
      [TPunct "<" false] ++ print_ty t' ++
      match n, p with
      | 0, Path lead segs =>
        [TPunct ">" false] ++ (if lead then t_colon2 else []) ++
        sep_by t_colon2 (map print_seg segs)
      | _, Path lead segs =>
        [t_id "as"] ++ (if lead then t_colon2 else []) ++
        sep_by t_colon2 (firstn n (map print_seg segs)) ++ [TPunct ">" false] ++
        flat_map (fun s => t_colon2 ++ s) (skipn n (map print_seg segs))
      end
    end
  | ELit s => [TLit s]
  | ECall f l => print_expr f ++ [TGroup Paren (sep_by [t_comma] (map print_expr l))]
  | EMacro m ts => sep_by t_colon2 (map (fun i => [TIdent i]) m) ++ [TPunct "!" false; TGroup Paren ts]
  end.

(** ** [ReplaceReceiver] *)

(** [syn::TypePath]: the receiver type [self.0] (utils.rs:168). *)
Record type_path : Type := mkTypePath { tp_q : option (ty * nat); tp_path : path }.
Definition tp_ty (s : type_path) : ty := TyPath (tp_q s) (tp_path s).

(** [prepend_underscore_to_self] (utils.rs:364-370). *)
Definition prepend_underscore_to_self (i : ident) : ident * bool :=
  if ident_is i "self" then (I "__self", true) else (i, false).

(** [contains_fn] (utils.rs:356-362). *)
Fixpoint tt_contains_fn (t : ttree) : bool :=
  match t with
  | TIdent i => ident_is i "fn"
  | TGroup _ l => existsb tt_contains_fn l
  | _ => false
  end.
Definition contains_fn (ts : list ttree) : bool := existsb tt_contains_fn ts.

(** [visit_token_stream] (utils.rs:230-275); the [modified] flag is returned and
    the output used only when it is set, as in the code.  The helper works on
    one token tree so that the recursion is structural: [vt_group] is the
    recursive call for the content of a group. *)
Definition starts_colon (ts : list ttree) : bool :=
  match ts with TPunct c _ :: _ => Ascii.eqb c ":" | _ => false end.

Section Visit.
  Variable self_toks : list ttree. (* the tokens of [self_ty] *)

  Fixpoint visit_tt (t : ttree) : ttree * bool :=
    match t with
    | TGroup d l =>
      let '(l', m) :=
        (fix go (ts : list ttree) : list ttree * bool :=
           match ts with
           | [] => ([], false)
           | TIdent i :: rest =>
             let '(i', m1) := prepend_underscore_to_self i in
             if ident_is i' "Self" then
               match rest with
               | TPunct c true as next :: rest' =>
                 if Ascii.eqb c ":" then
                   let '(o, _) := go rest' in
                   ((if starts_colon rest'
                     then [TPunct "<" false] ++ self_toks ++ [TPunct ">" false]
                     else self_toks) ++ next :: o, true)
                 else let '(o, _) := go rest in (self_toks ++ o, true)
               | _ => let '(o, _) := go rest in (self_toks ++ o, true)
               end
             else let '(o, m) := go rest in (TIdent i' :: o, m1 || m)
           | t' :: rest =>
             let '(t2, m1) := visit_tt t' in
             let '(o, m) := go rest in (t2 :: o, m1 || m)
           end) l in
      (TGroup d (if m then l' else l), m)
    | _ => (t, false)
    end.

  (** The loop over a token stream; the same text as the inner loop above. *)
  Fixpoint visit_stream (ts : list ttree) : list ttree * bool :=
    match ts with
    | [] => ([], false)
    | TIdent i :: rest =>
      let '(i', m1) := prepend_underscore_to_self i in
      if ident_is i' "Self" then
        match rest with
        | TPunct c true as next :: rest' =>
          if Ascii.eqb c ":" then
            let '(o, _) := visit_stream rest' in
            ((if starts_colon rest'
              then [TPunct "<" false] ++ self_toks ++ [TPunct ">" false]
              else self_toks) ++ next :: o, true)
          else let '(o, _) := visit_stream rest in (self_toks ++ o, true)
        | _ => let '(o, _) := visit_stream rest in (self_toks ++ o, true)
        end
      else let '(o, m) := visit_stream rest in (TIdent i' :: o, m1 || m)
    | t' :: rest =>
      let '(t2, m1) := visit_tt t' in
      let '(o, m) := visit_stream rest in (t2 :: o, m1 || m)
    end.
  Definition visit_token_stream (ts : list ttree) : list ttree * bool :=
    let '(o, m) := visit_stream ts in (if m then o else ts, m).

  (** [visit_macro_mut] (utils.rs:344-353). *)
  Definition visit_macro (ts : list ttree) : list ttree :=
    if contains_fn ts then ts else fst (visit_token_stream ts).
End Visit.

(** [self_to_expr_path] (utils.rs:205-228). *)
Definition add_turbofish (s : seg) : seg :=
  match s with
  | Seg i (GAngle false ((_ :: _) as l)) => Seg i (GAngle true l)
  | _ => s
  end.
Definition self_to_expr_path (self : type_path) (p : path) : path :=
  match p with
  | Path false (Seg i GNone :: rest) =>
    if ident_is i "Self" then
      match tp_path self with
      | Path lead segs => Path lead (map add_turbofish segs ++ rest)
      end
    else p
  | _ => p
  end.

Definition path_is_Self (q : option (ty * nat)) (p : path) : bool :=
  match q, p with
  | None, Path false [Seg i GNone] => ident_is i "Self"
  | _, _ => false
  end.

(** [Self::x::y] with at least one more segment, no qself, no leading colon: the
    paths that [self_to_qself] (utils.rs:175-203) rewrites. *)
Definition path_starts_Self (q : option (ty * nat)) (p : path) : bool :=
  match q, p with
  | None, Path false (Seg i GNone :: _ :: _) => ident_is i "Self"
  | _, _ => false
  end.

(** The visitor on types (utils.rs:278-354): [visit_type_mut],
    [visit_type_path_mut], [visit_expr_path_mut], [visit_path_mut],
    [visit_macro_mut] and [syn]'s default traversal for all other nodes.
    A path [Self::rest] becomes [<self_ty>::rest].  [syn]'s traversal then
    visits the spliced-in [self_ty] once more; it contains no [Self]/[self], so
    that visit is the identity (C38_unchanged in PropMeaning.v) and
    is omitted here. *)
Section Replace.
  Variable self : type_path.
  Let self_toks : list ttree := print_ty (tp_ty self).

  Definition underscore_path (segs : list seg) : list seg :=
    match segs with
    | [Seg i a] => [Seg (fst (prepend_underscore_to_self i)) a]
    | _ => segs
    end.

  Fixpoint replace_ty (t : ty) : ty :=
    match t with
    | TyPath q p =>
      if path_is_Self q p then tp_ty self
      else if path_starts_Self q p then
        match p with
        | Path _ segs =>
          TyPath (Some (tp_ty self, 0))
            (Path true (underscore_path (skipn 1 (map replace_seg segs))))
        end
      else
        TyPath (match q with Some (t', n) => Some (replace_ty t', n) | None => None end)
          (replace_path p)
    | TyRef lt m t' => TyRef lt m (replace_ty t')
    | TyPtr m t' => TyPtr m (replace_ty t')
    | TyTuple l => TyTuple (map replace_ty l)
    | TySlice t' => TySlice (replace_ty t')
    | TyArray t' e => TyArray (replace_ty t') (replace_expr e)
    | TyFn lts l o =>
      TyFn lts (map replace_ty l) (match o with Some t' => Some (replace_ty t') | None => None end)
    | TyDyn bs => TyDyn (map replace_bound bs)
    | TyParen t' => TyParen (replace_ty t')
    | TyNever => TyNever
    | TyMacro m ts => TyMacro m (visit_macro self_toks ts)
    end
  with replace_path (p : path) : path :=
    match p with
    | Path lead segs => Path lead (underscore_path (map replace_seg segs))
    end
  with replace_seg (s : seg) : seg :=
    match s with Seg i a => Seg i (replace_gargs a) end
  with replace_gargs (a : gargs) : gargs :=
    match a with
    | GNone => GNone
    | GAngle turbo l => GAngle turbo (map replace_garg l)
    | GParen l o =>
      GParen (map replace_ty l) (match o with Some t' => Some (replace_ty t') | None => None end)
    end
  with replace_garg (a : garg) : garg :=
    match a with
    | ALt lt => ALt lt
    | ATy t => ATy (replace_ty t)
    | AConst e => AConst (replace_expr e)
    | AAssoc i t => AAssoc i (replace_ty t)
    end
  with replace_bound (b : bound) : bound :=
    match b with
    | BLt lt => BLt lt
    | BTrait maybe lts p => BTrait maybe lts (replace_path p)
    end
  with replace_expr (e : expr) : expr :=
    match e with
    | EPath q p =>
      if path_is_Self q p then EPath None (self_to_expr_path self p)
      else if path_starts_Self q p then
        match p with
        | Path _ segs =>
          EPath (Some (tp_ty self, 0))
            (Path true (underscore_path (skipn 1 (map replace_seg segs))))
        end
      else
        EPath (match q with Some (t', n) => Some (replace_ty t', n) | None => None end)
          (replace_path p)
    | ELit s => ELit s
    | ECall f l => ECall (replace_expr f) (map replace_expr l)
    | EMacro m ts => EMacro m (visit_macro self_toks ts)
    end.

  Definition replace_param (p : gparam) : gparam :=
    match p with
    | PLt lt bs => PLt lt bs
    | PTy i bs d => PTy i (map replace_bound bs) (option_map replace_ty d)
    | PConst i t d => PConst i (replace_ty t) (option_map replace_expr d)
    end.
  Definition replace_wpred (w : wpred) : wpred :=
    match w with
    | WLt lt bs => WLt lt bs
    | WTy lts t bs => WTy lts (replace_ty t) (map replace_bound bs)
    end.
  Definition replace_generics (g : generics) : generics :=
    mkGenerics (map replace_param (g_params g)) (option_map (map replace_wpred) (g_where g)).

  (** A one-segment path [self] becomes [__self] wherever [syn] visits a path
      (utils.rs:323-327): also in [pub(self)] and in attribute paths. *)
  Definition replace_ids (p : list ident) : list ident :=
    match p with
    | [i] => [fst (prepend_underscore_to_self i)]
    | _ => p
    end.
  Definition replace_vis (v : vis) : vis :=
    match v with
    | VRestricted b p => VRestricted b (replace_ids p)
    | _ => v
    end.
  (** Tokens of list attributes are not visited; the value of a name-value
      attribute is an expression in [syn] and is left alone here
      (simplification: only literals occur there in practice). *)
  Definition replace_attr (a : attr) : attr :=
    mkAttr (a_lead a) (replace_ids (a_path a)) (a_meta a).
  Definition replace_field (f : field) : field :=
    mkField (map replace_attr (f_attrs f)) (replace_vis (f_vis f)) (f_ident f) (replace_ty (f_ty f)).
  Definition replace_fields (fs : fields) : fields :=
    match fs with
    | FNamed l => FNamed (map replace_field l)
    | FUnnamed l => FUnnamed (map replace_field l)
    | FUnit => FUnit
    end.
  Definition replace_variant (v : variant) : variant :=
    mkVariant (map replace_attr (v_attrs v)) (v_ident v) (replace_fields (v_fields v)) (v_disc v).

  (** [visit_item_struct_mut] / [visit_item_enum_mut] (derive.rs:31-32, 40-41). *)
  Definition replace_struct (s : item_struct) : item_struct :=
    mkStruct (map replace_attr (s_attrs s)) (replace_vis (s_vis s)) (s_ident s)
      (replace_generics (s_generics s)) (replace_fields (s_fields s)).
  Definition replace_enum (e : item_enum) : item_enum :=
    mkEnum (map replace_attr (e_attrs e)) (replace_vis (e_vis e)) (e_ident e)
      (replace_generics (e_generics e)) (map replace_variant (e_variants e)).
End Replace.
