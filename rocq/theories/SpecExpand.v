(** Vocabulary for the properties of the generated code. *)
From Coq Require Import String Ascii List Bool.
From Verif Require Import Base Syntax ModelArgs ModelUtils SpecArgs SpecDerive SpecLifetime.
Import ListNotations.
Open Scope string_scope.
Open Scope list_scope.

(** ** Reading an expansion *)
Definition all_items (e : expansion) : list oitem := exposed e ++ scoped e.

(** The inherent methods. *)
Definition inherent (it : oitem) : list method :=
  match it with
  | OImpl im => match i_trait im with None => i_methods im | Some _ => [] end
  | _ => []
  end.
Definition inherent_methods (e : expansion) : list method := flat_map inherent (all_items e).

(** Names that items introduce in the scope they are in. *)
Definition introduces (it : oitem) : list ident :=
  match it with
  | OStruct _ i _ _ | OEnum _ i _ _ | OTrait i => [i]
  | OImpl _ => []
  | OAssert _ _ _ => [I "__assert_not_repr_packed"]
  | OExternCrate _ i => [i]
  end.

(** A path of the support crate, as seen from the [const] scope. *)
Definition support (l : list string) : path := Path false (map seg1 ("_pin_project" :: l)).
Definition implements (tr : path) (it : oitem) : Prop :=
  exists im, it = OImpl im /\ i_trait im = Some tr.

(** ** Items with [Self] spelled out

    Field types, bounds and where clauses of the generated code are those of
    the item with [Self] replaced by the type itself; what this replacement does
    is the subject of C38. *)
Definition own_type (i : ident) (g : generics) : type_path := mkTypePath None (Path false [Seg i
  match g_params g with
  | [] => GNone
  | ps => GAngle false (map (fun p => match p with
                                      | PLt lt _ => ALt lt
                                      | PTy j _ _ | PConst j _ _ => ATy (ty_ident j)
                                      end)
                          (filter is_lt_param ps ++ filter (fun p => negb (is_lt_param p)) ps))
  end]).

(** ** The three projections *)
Inductive proj : Type := PMut | PRef | POwn.

Definition proj_method (k : proj) : ident :=
  I (match k with PMut => "project" | PRef => "project_ref" | POwn => "project_replace" end).
(** The name given for the projected type, if any. *)
Definition given_name (k : proj) (a : args) : option ident :=
  match k with
  | PMut => ar_project a
  | PRef => ar_project_ref a
  | POwn => match ar_project_replace a with PRNamed i => Some i | _ => None end
  end.
(** Its name in the generated code. *)
Definition proj_name (k : proj) (a : args) (i : ident) : ident :=
  match given_name k a with
  | Some n => n
  | None => I ("__" ++ name i ++
               match k with PMut => "Projection" | PRef => "ProjectionRef" | POwn => "ProjectionOwned" end)
  end.
(** On structs [project] and [project_ref] are always there. *)
Definition struct_has (k : proj) (a : args) : bool :=
  match k with
  | PMut | PRef => true
  | POwn => match ar_project_replace a with PRNone => false | _ => true end
  end.
Definition enum_has (k : proj) (a : args) : bool :=
  match given_name k a with Some _ => true | None => false end.
Definition all_proj : list proj := [PMut; PRef; POwn].

(** ** Types of projected fields *)
Definition priv (s : string) (t : ty) : ty :=
  TyPath None (Path true [seg1 "pin_project"; seg1 "__private"; Seg (I s) (GAngle false [ATy t])]).
Definition pinned_ty (k : proj) (lt : string) (t : ty) : ty :=
  match k with
  | PMut => priv "Pin" (TyRef (Some lt) true (TyParen t))
  | PRef => priv "Pin" (TyRef (Some lt) false (TyParen t))
  | POwn => priv "PhantomData" t
  end.
Definition unpinned_ty (k : proj) (lt : string) (t : ty) : ty :=
  match k with
  | PMut => TyRef (Some lt) true (TyParen t)
  | PRef => TyRef (Some lt) false (TyParen t)
  | POwn => t
  end.

(** [pub(self)] and [pub(in self)]. *)
Definition is_pub_self (v : vis) : Prop := exists b, v = VRestricted b [I "self"].

(** [f'] is the projected field for [f]. *)
Record field_projected (k : proj) (lt : string) (self : type_path) (f f' : field) : Prop := {
  fp_ident : f_ident f' = f_ident f;
  fp_vis : ~ is_pub_self (f_vis f) -> f_vis f' = f_vis f;
  fp_pub_self : forall b, f_vis f = VRestricted b [I "self"] -> f_vis f' = VRestricted b [I "__self"];
  fp_attrs : f_attrs f' = [];
  fp_pinned : pinned f -> f_ty f' = pinned_ty k lt (replace_ty self (f_ty f));
  fp_unpinned : ~ pinned f -> f_ty f' = unpinned_ty k lt (replace_ty self (f_ty f))
}.
Inductive fields_projected (k : proj) (lt : string) (self : type_path) : fields -> fields -> Prop :=
| FP_named l l' : Forall2 (field_projected k lt self) l l' -> fields_projected k lt self (FNamed l) (FNamed l')
| FP_unnamed l l' : Forall2 (field_projected k lt self) l l' -> fields_projected k lt self (FUnnamed l) (FUnnamed l')
| FP_unit : fields_projected k lt self FUnit FUnit.
Record variant_projected (k : proj) (lt : string) (self : type_path) (v v' : variant) : Prop := {
  vp_ident : v_ident v' = v_ident v;
  vp_attrs : v_attrs v' = [];
  vp_disc : v_disc v' = false;
  vp_fields : fields_projected k lt self (v_fields v) (v_fields v')
}.

(** ** The inserted lifetime *)
Definition pin_lifetime (g : generics) (lt : string) : Prop :=
  exists n, lt = String.append "'pin" (underscores n) /\
    (forall l, declared g l -> ~ begins_with lt l) /\
    (forall m, m < n -> exists l, declared g l /\ begins_with (String.append "'pin" (underscores m)) l).

(** Rust wants lifetimes before other parameters. *)
Definition ordered (l : list gparam) : Prop :=
  exists lts rest, l = lts ++ rest /\
    (forall p, In p lts -> is_lt_param p = true) /\ (forall p, In p rest -> is_lt_param p = false).

(** Parameters as arguments: [<'a, T, N>]. *)
Definition as_arg (p : gparam) : garg :=
  match p with PLt lt _ => ALt lt | PTy i _ _ | PConst i _ _ => ATy (ty_ident i) end.
Definition applied (i : ident) (l : list garg) : ty :=
  TyPath None (Path false [Seg i (match l with [] => GNone | _ => GAngle false l end)]).
Definition preds (g : generics) : list wpred := match g_where g with Some l => l | None => [] end.

(** The generics of a projected type.  [gs] are the generics of the item with
    [Self] spelled out. *)
Definition spelled (i : ident) (g : generics) : generics := replace_generics (own_type i g) g.
Definition projected_params (k : proj) (lt : string) (gs : generics) : list gparam :=
  match k with PMut | PRef => PLt lt [] :: g_params gs | POwn => g_params gs end.
Definition projected_preds (k : proj) (lt : string) (i : ident) (g gs : generics) : list wpred :=
  match k with
  | PMut | PRef => preds gs ++ [WTy [] (applied i (map as_arg (g_params g))) [BLt lt]]
  | POwn => preds gs
  end.

(** The projection method [k] of the type [i<..>]. *)
Definition pin_self (lt : option string) (m : bool) : receiver :=
  RecvTyped (TyPath None (Path false [seg1 "_pin_project"; seg1 "__private";
    Seg (I "Pin") (GAngle false [ATy (TyRef lt m ty_self)])])).
Record projection_method (k : proj) (lt : string) (a : args) (i : ident) (g : generics) (m : method) : Prop := {
  pm_name : m_name m = proj_method k;
  pm_safe : m_unsafe m = false;
  pm_lts : m_lts m = match k with PMut | PRef => [lt] | POwn => [] end;
  pm_self : m_self m = match k with
                       | PMut => pin_self (Some lt) true
                       | PRef => pin_self (Some lt) false
                       | POwn => pin_self None true
                       end;
  pm_params : m_params m = match k with PMut | PRef => [] | POwn => [(I "__replacement", ty_self)] end;
  pm_ret : m_ret m = Some (applied (proj_name k a i)
             (match k with PMut | PRef => [ALt lt] | POwn => [] end ++ map as_arg (g_params g)))
}.
Definition without_default (p : gparam) : gparam :=
  match p with PLt lt bs => PLt lt bs | PTy i bs _ => PTy i bs None | PConst i t _ => PConst i t None end.

(** The helper struct of the default mode and the trait that forbids [Drop]. *)
Definition helper_name (i : ident) : ident := I ("__" ++ name i).
Definition drop_guard_name (i : ident) : ident := I (name i ++ "MustNotImplDrop").
Definition is_default (a : args) : bool := match ar_unpin a with UDefault => true | _ => false end.

(** The traits implemented in an expansion, in order, with the implementing type. *)
Definition implemented (it : oitem) : list (path * ty) :=
  match it with
  | OImpl im => match i_trait im with Some tr => [(tr, i_self im)] | None => [] end
  | _ => []
  end.
Definition trait_impls (e : expansion) : list (path * ty) := flat_map implemented (all_items e).
Definition opt_given (k : proj) (a : args) : list ident :=
  match given_name k a with Some n => [n] | None => [] end.
(** Projected types of a struct that have no name given. *)
Definition struct_hidden (k : proj) (a : args) (i : ident) : list ident :=
  if struct_has k a then match given_name k a with Some _ => [] | None => [proj_name k a i] end else [].

(** The inherent impls of an expansion. *)
Definition inherent_impls (l : list oitem) : list impl :=
  flat_map (fun it => match it with
                      | OImpl im => match i_trait im with None => [im] | Some _ => [] end
                      | _ => []
                      end) l.
(** The impl of the projection methods [ks] for the type [i<..>]. *)
Record projection_impl (ks : list proj) (lt : string) (a : args) (i : ident) (g : generics) (im : impl) : Prop := {
  pi_safe : i_unsafe im = false;
  pi_self : i_self im = applied i (map as_arg (g_params g));
  pi_params : g_params (i_generics im) = map without_default (g_params (spelled i g));
  pi_preds : preds (i_generics im) = preds (spelled i g);
  pi_methods : Forall2 (fun k m => projection_method k lt a i g m) ks (i_methods im)
}.

(** The traits that are implemented, exactly. *)
Definition traits_of (a : args) (i : ident) (self : ty) : list (path * ty) :=
  [(support ["__private"; "Unpin"], self)] ++
  match ar_unpin a with UUnsafe => [] | _ => [(support ["UnsafeUnpin"], self)] end ++
  (if ar_pinned_drop a then [(support ["__private"; "Drop"], self)]
   else [(Path false [Seg (drop_guard_name i) GNone], ty_ident (I "T"));
         (Path false [Seg (drop_guard_name i) GNone], self);
         (support ["__private"; "PinnedDrop"], self)]).
