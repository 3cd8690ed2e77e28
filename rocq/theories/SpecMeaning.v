(** What a type expression contains: its paths, lifetimes and macro calls. *)
From Coq Require Import String List Bool.
From Verif Require Import Base Syntax ModelUtils ModelMeaning SpecDerive SpecLifetime SpecExpand.
Import ListNotations.
Open Scope string_scope.
Open Scope list_scope.

(** [NPath (Some n)] is a path behind [<T as ..>::] with [n] segments in the
    trait part ([0]: [<T>::path]). *)
Inductive node : Type :=
| NPath (q : option nat) (lead : bool) (l : list ident)
| NLt (lt : string)
| NMacro (m : list ident) (ts : list ttree)
| NSelfValue    (* the expression [Self] *)
| NOddSelf.     (* [Self] where Rust does not allow it: with arguments, behind
                   [<T as ..>::], as a trait, or as [r#Self] *)

Definition seg_ident (s : seg) : ident := match s with Seg i _ => i end.

Definition odd_self (trait : bool) (q : option (ty * nat)) (lead : bool) (segs : list seg) : list node :=
  match lead, segs with
  | false, Seg i a :: _ =>
    if String.eqb (name i) "Self" then
      match trait, q, a with
      | false, None, GNone => if ident_eqb i (I "Self") then [] else [NOddSelf]
      | _, _, _ => [NOddSelf]
      end
    else []
  | _, _ => []
  end.

Fixpoint nodes_ty (t : ty) : list node :=
  match t with
  | TyPath q (Path lead segs) =>
    NPath (match q with Some (_, n) => Some n | None => None end) lead (map seg_ident segs)
    :: match q with Some (t', _) => nodes_ty t' | None => [] end ++ flat_map nodes_seg segs
    ++ odd_self false q lead segs
  | TyRef lt _ t' => match lt with Some x => [NLt x] | None => [] end ++ nodes_ty t'
  | TyPtr _ t' => nodes_ty t'
  | TyTuple l => flat_map nodes_ty l
  | TySlice t' => nodes_ty t'
  | TyArray t' e => nodes_ty t' ++ nodes_expr e
  | TyFn _ l o => flat_map nodes_ty l ++ match o with Some t' => nodes_ty t' | None => [] end
  | TyDyn bs => flat_map nodes_bound bs
  | TyParen t' => nodes_ty t'
  | TyNever => []
  | TyMacro m ts => [NMacro m ts]
  end
with nodes_seg (s : seg) : list node :=
  match s with Seg _ a => nodes_gargs a end
with nodes_gargs (a : gargs) : list node :=
  match a with
  | GNone => []
  | GAngle _ l => flat_map nodes_garg l
  | GParen l o => flat_map nodes_ty l ++ match o with Some t' => nodes_ty t' | None => [] end
  end
with nodes_garg (a : garg) : list node :=
  match a with
  | ALt lt => [NLt lt]
  | ATy t => nodes_ty t
  | AConst e => nodes_expr e
  | AAssoc _ t => nodes_ty t
  end
with nodes_bound (b : bound) : list node :=
  match b with
  | BLt lt => [NLt lt]
  | BTrait _ _ (Path lead segs) =>
    NPath None lead (map seg_ident segs) :: flat_map nodes_seg segs ++ odd_self true None lead segs
  end
with nodes_expr (e : expr) : list node :=
  match e with
  | EPath q (Path lead segs) =>
    NPath (match q with Some (_, n) => Some n | None => None end) lead (map seg_ident segs)
    :: match q with Some (t', _) => nodes_ty t' | None => [] end ++ flat_map nodes_seg segs
    ++ odd_self false q lead segs
    ++ match q, lead, segs with
       | None, false, [Seg i GNone] => if ident_eqb i (I "Self") then [NSelfValue] else []
       | _, _, _ => []
       end
  | ELit _ => []
  | ECall f l => nodes_expr f ++ flat_map nodes_expr l
  | EMacro m ts => [NMacro m ts]
  end.

Definition nodes_param (p : gparam) : list node :=
  match p with
  | PLt lt bs => NLt lt :: map NLt bs
  | PTy _ bs _ => flat_map nodes_bound bs
  | PConst _ t _ => nodes_ty t
  end.
Definition nodes_wpred (w : wpred) : list node :=
  match w with
  | WLt lt bs => NLt lt :: map NLt bs
  | WTy _ t bs => nodes_ty t ++ flat_map nodes_bound bs
  end.
(** Parameters and where clause (not the defaults of parameters). *)
Definition nodes_generics (g : generics) : list node :=
  flat_map nodes_param (g_params g) ++
  flat_map nodes_wpred (match g_where g with Some l => l | None => [] end).

(** What parameters and where predicates say (without the defaults). *)
Inductive mparam (A B : Type) : Type :=
| MLt (lt : string) (bounds : list B)
| MTy (x : string) (bs : list (dbound A B))
| MConst (x : string) (t : A).
Inductive mpred (A B : Type) : Type :=
| MOutlives (lt : B) (bounds : list B)
| MHolds (lts : list string) (t : A) (bs : list (dbound A B)).
Arguments MLt {A B}. Arguments MTy {A B}. Arguments MConst {A B}. Arguments MOutlives {A B}. Arguments MHolds {A B}.
Definition den_param (U : univ) (E : env (D U) (LT U)) (p : gparam) : mparam (D U) (LT U) :=
  match p with
  | PLt lt bs => MLt lt (map (lts_of E) bs)
  | PTy i bs _ => MTy (name i) (map (den_bound E) bs)
  | PConst i t _ => MConst (name i) (den_ty E t)
  end.
Definition den_wpred (U : univ) (E : env (D U) (LT U)) (w : wpred) : mpred (D U) (LT U) :=
  match w with
  | WLt lt bs => MOutlives (lts_of E lt) (map (lts_of E) bs)
  | WTy lts t bs => MHolds lts (den_ty (under lts E) t) (map (den_bound (under lts E)) bs)
  end.
Definition den_generics (U : univ) (E : env (D U) (LT U)) (g : generics) : list (mparam (D U) (LT U)) * list (mpred (D U) (LT U)) :=
  (map (den_param U E) (g_params g), map (den_wpred U E) (match g_where g with Some l => l | None => [] end)).
Arguments den_param {U}. Arguments den_wpred {U}. Arguments den_generics {U}.
(** [lt] is bound by a [for<..>] in the generics. *)
Definition binds_generics (lt : string) (g : generics) : Prop :=
  (exists i bs d b, In (PTy i bs d) (g_params g) /\ In b bs /\ binds_bound lt b) \/
  (exists i t d, In (PConst i t d) (g_params g) /\ binds_ty lt t) \/
  (exists w lts t bs, g_where g = Some w /\ In (WTy lts t bs) w /\
    (In lt lts \/ binds_ty lt t \/ exists b, In b bs /\ binds_bound lt b)).

(** [x] is the first name of a path that is looked up where the path stands. *)
Definition looks_up (l : list node) (x : string) : Prop :=
  exists q i r, In (NPath q false (i :: r)) l /\ q <> Some 0 /\ name i = x.

(** [self] is a keyword: it is at most the first of several names. *)
Definition self_legal (l : list node) : Prop :=
  forall q lead p, In (NPath q lead p) l ->
  forall l1 l2, p = l1 ++ I "self" :: l2 -> q = None /\ l1 = [] /\ l2 <> [].

(** Two assignments that agree except perhaps on [pin]. *)
Definition same_but (A : Type) (pin : string) (f g : string -> A) : Prop := forall x, x <> pin -> f x = g x.
Arguments same_but {A}.
(** The macro calls mean the same when [Self] in their input is spelled out. *)
Definition macros_spelled (U : univ) (n : string -> head (D U)) (self : ty) (l : list node) : Prop :=
  forall m ts lf, In (NMacro m ts) l ->
  u_macro U (mkEnv n lf) m (visit_macro (print_ty self) ts) = u_macro U (mkEnv n lf) m ts.

(** The type [self] can be written instead of [Self] in something that contains
    the nodes [l] and has binders [bs]. *)
Record spellable (U : univ) (n : string -> head (D U)) (q : option (ty * nat)) (p : path)
    (l : list node) (binds : string -> Prop) : Prop := {
  sp_self : self_legal l;                                      (* [self] is used as a keyword *)
  sp_macros : macros_spelled U n (TyPath q p) l;
  sp_value : q = None \/ ~ In NSelfValue l;                    (* [<X as Tr>::Y] is not a value *)
  sp_binders : forall x, binds x -> ~ In (NLt x) (nodes_ty (TyPath q p)) (* no lifetime of the type is rebound *)
}.
(** [Self] is the name of the type that is written [q p]; the type calls no
    macros. *)
Definition self_is (U : univ) (n : string -> head (D U)) (f : string -> LT U) (q : option (ty * nat)) (p : path) : Prop :=
  n "Self" = HDone (den_ty (mkEnv n f) (TyPath q p)) /\ forall m ts, ~ In (NMacro m ts) (nodes_ty (TyPath q p)).

(** The place where a type [t] written in the item is copied to: names mean
    [n'] there instead of [n].  Nothing that [t] or the spelled-out type
    [self] refers to is captured, except [Self]. *)
Record copied (U : univ) (pin : string) (n n' : string -> head (D U)) (self t : ty) : Prop := {
  cp_names : forall x, looks_up (nodes_ty t) x \/ looks_up (nodes_ty self) x -> x <> "Self" -> n' x = n x;
  cp_pin : ~ In (NLt pin) (nodes_ty t) /\ ~ In (NLt pin) (nodes_ty self);
  cp_spelled : macros_spelled U n self (nodes_ty t);
  cp_macros : forall m ts f g, In (NMacro m ts) (nodes_ty t) -> same_but pin f g ->
    u_macro U (mkEnv n' f) m (visit_macro (print_ty self) ts) = u_macro U (mkEnv n g) m (visit_macro (print_ty self) ts)
}.
(** [t] is legal where [Self] is written: no [Self<..>] and the like, [self] is
    a keyword, and no lifetime of [self] is rebound. *)
Record well_written (self t : ty) : Prop := {
  ww_self : self_legal (nodes_ty t);
  ww_Self : ~ In NOddSelf (nodes_ty t);
  ww_binders : forall x, binds_ty x t -> ~ In (NLt x) (nodes_ty self)
}.
(** What the projected types should mean: [r] is the lifetime of the projected
    reference and [d] the meaning of the field's type. *)
Definition private (U : univ) (s : string) (d : D U) : D U :=
  u_sel U (u_sel U (u_abs U "pin_project" []) "__private" []) s [DTy d].
Definition projected_meaning (U : univ) (k : proj) (pinned : bool) (r : LT U) (d : D U) : D U :=
  match k, pinned with
  | PMut, true => private U "Pin" (u_ref U r true d)
  | PRef, true => private U "Pin" (u_ref U r false d)
  | POwn, true => private U "PhantomData" d
  | PMut, false => u_ref U r true d
  | PRef, false => u_ref U r false d
  | POwn, false => d
  end.
(** The type of [fld'] in the projected type is what it should be. *)
Record means_projected (U : univ) (k : proj) (r : LT U) (E E' : env (D U) (LT U)) (fld fld' : field) : Prop := {
  mp_ident : f_ident fld' = f_ident fld;
  mp_pinned : pinned fld -> den_ty E' (f_ty fld') = projected_meaning U k true r (den_ty E (f_ty fld));
  mp_unpinned : ~ pinned fld -> den_ty E' (f_ty fld') = projected_meaning U k false r (den_ty E (f_ty fld))
}.

(** A keyword as the name of an item or a parameter. *)
Definition named_self (i : ident) : Prop := i = I "self" \/ i = I "Self".
