(** Traits: the impls of the support crate, and how the compiler selects impls
    and checks them for overlap.

    The first part models /repo/src/lib.rs:181-305.  The rest models the
    compiler: a program is everything around one item with its expansion, and
    "implements" is any relation that solves the selection rules (so that what
    is proved does not depend on the order in which the compiler works, nor on
    how it treats cycles of auto traits). *)
From Coq Require Import String List Bool.
From Verif Require Import Base Syntax ModelUtils ModelDerive ModelMeaning.
Import ListNotations.
Open Scope string_scope.
Open Scope list_scope.

(** ** The support crate *)
Definition lib_t : ty := ty_ident (I "T").
Definition lib_app (s : string) (l : list garg) : ty := TyPath None (Path false [Seg (I s) (GAngle false l)]).
Definition lib_bound (s : string) : bound := BTrait false [] (Path false [seg1 s]).
Definition maybe_sized : bound := BTrait true [] (Path false [seg1 "Sized"]).
Definition lib_field (t : ty) : field := mkField [] VInherited None t.
(** [PhantomData<&'a ()>]. *)
Definition lib_marker (lt : string) : ty := lib_app "PhantomData" [ATy (TyRef (Some lt) false (TyTuple []))].

(** lib.rs:277-280, 290-305.  [Wrapper<'_, T>] in an impl header stands for a
    fresh lifetime parameter of the impl, written [PLt "'_"] here. *)
Definition lib_items : list oitem :=
  [OStruct VPub (I "Wrapper") (mkGenerics [PLt "'a" []; PTy (I "T") [maybe_sized] None] None)
     (FUnnamed [lib_field (lib_marker "'a"); lib_field lib_t]);
   OImpl (mkImpl true
     (mkGenerics [PLt "'_" []; PTy (I "T") [maybe_sized; lib_bound "UnsafeUnpin"] None] None)
     (Some (Path false [seg1 "UnsafeUnpin"])) (lib_app "Wrapper" [ALt "'_"; ATy lib_t]) []);
   OStruct VPub (I "PinnedFieldsOfHelperStruct") (mkGenerics [PTy (I "T") [maybe_sized] None] None)
     (FUnnamed [lib_field lib_t]);
   OStruct VPub (I "AlwaysUnpin") (mkGenerics [PLt "'a" []; PTy (I "T") [] None] None)
     (FUnnamed [lib_field (lib_marker "'a"); lib_field (lib_app "PhantomData" [ATy lib_t])]);
   OImpl (mkImpl false (mkGenerics [PLt "'_" []; PTy (I "T") [] None] None)
     (Some (Path false [seg1 "Unpin"])) (lib_app "AlwaysUnpin" [ALt "'_"; ATy lib_t]) [])].

(** [type PinnedFieldsOf<T>] (lib.rs:286-287) and [type Actual] in the impl of
    [PinnedFieldsOfHelperTrait] for [PinnedFieldsOfHelperStruct<T>] (295-297). *)
Definition pinned_fields_of_alias : ty :=
  TyPath (Some (lib_app "PinnedFieldsOfHelperStruct" [ATy lib_t], 1))
    (Path false [seg1 "PinnedFieldsOfHelperTrait"; seg1 "Actual"]).
Definition actual : ty := lib_t.

(** ** Programs *)
Record setting : Type := mkSetting {
  se_univ : univ;
  se_outer : env (D se_univ) (LT se_univ);   (* the place where the item stands *)
  se_item : item;
  se_exp : expansion;
  se_def : D se_univ;                        (* the item itself *)
  se_gen : string -> D se_univ;              (* what is defined inside [const _] *)
  se_lib : string -> D se_univ;              (* what [pin_project::__private] offers *)
  se_impls : list (env (D se_univ) (LT se_univ) * impl);  (* all other impls, each with its place *)
  se_other : D se_univ -> D se_univ -> Prop; (* traits of types that are not modelled *)
  se_outlives : D se_univ -> LT se_univ -> Prop;
  se_lt_outlives : LT se_univ -> LT se_univ -> Prop
}.

Section Traits.
  Variable se : setting.
  Notation U := (se_univ se).
  Notation T := (D U).
  Notation E_ := (env T (LT U)).

  Definition lib_env : E_ := mkEnv (fun x => HDef (se_lib se x)) (fun _ => u_elided U).

  (** Inside [const _: () = { .. }] the names that the generated items introduce
      hide those outside.  [extern crate pin_project as _pin_project;] makes the
      alias mean the crate of that name (derive.rs:101), which need not be what
      [::pin_project] means: the user may write [extern crate self as pin_project;]. *)
  Fixpoint introduced (l : list oitem) (x : string) : option (head T) :=
    match l with
    | [] => None
    | it :: r =>
      match it with
      | OStruct _ i _ _ | OEnum _ i _ _ | OTrait i =>
        if String.eqb (name i) x then Some (HDef (se_gen se x)) else introduced r x
      | OExternCrate orig alias =>
        if String.eqb (name alias) x then Some (HDone (u_extern U (name orig))) else introduced r x
      | OAssert _ _ _ =>
        if String.eqb "__assert_not_repr_packed" x then Some (HDef (se_gen se x)) else introduced r x
      | OImpl _ => introduced r x
      end
    end.
  Definition inner_env : E_ :=
    mkEnv (fun x => match introduced (scoped (se_exp se)) x with
                    | Some h => h
                    | None => names (se_outer se) x
                    end) (lts_of (se_outer se)).

  (** The place of the generics of an item or impl; [Self] is added once the
      type in the header is known. *)
  Definition header_env (E : E_) (g : generics) (s : string -> T) (l : string -> LT U) : E_ :=
    with_params (g_params g) s l E.
  Definition impl_env (E : E_) (im : impl) (s : string -> T) (l : string -> LT U) : E_ :=
    with_params (g_params (i_generics im)) s l
      (with_self (den_ty (header_env E (i_generics im) s l) (i_self im)) E).

  Definition impls_of (E : E_) (l : list oitem) : list (E_ * impl) :=
    flat_map (fun it => match it with OImpl im => [(E, im)] | _ => [] end) l.
  Definition generated_impls : list (E_ * impl) := impls_of inner_env (scoped (se_exp se)).
  Definition lib_impls : list (E_ * impl) := impls_of lib_env lib_items.
  Definition all_impls : list (E_ * impl) := se_impls se ++ generated_impls ++ lib_impls.

  (** Definitions whose fields are known: the item, the generated structs and
      those of the support crate. *)
  Definition structs_of (E : E_) (d : string -> T) (l : list oitem) : list (E_ * T * generics * list field) :=
    flat_map (fun it => match it with OStruct _ i g fs => [(E, d (name i), g, fields_list fs)] | _ => [] end) l.
  Definition item_def : list (E_ * T * generics * list field) :=
    match se_item se with
    | ItStruct s => [(se_outer se, se_def se, s_generics s, fields_list (s_fields s))]
    | ItEnum e => [(se_outer se, se_def se, e_generics e, flat_map (fun v => fields_list (v_fields v)) (e_variants e))]
    | ItOther => []
    end.
  Definition definitions : list (E_ * T * generics * list field) :=
    item_def ++ structs_of inner_env (se_gen se) (scoped (se_exp se)) ++ structs_of lib_env (se_lib se) lib_items.

  (** ** Predicates *)
  Definition param_pred (p : gparam) : list wpred :=
    match p with
    | PLt lt bs => [WLt lt bs]
    | PTy i bs _ => [WTy [] (ty_ident i) bs]
    | PConst _ _ _ => []
    end.
  (** A type parameter is [Sized] unless [?Sized] is said of it, inline or in the
      where clause.  The built-in bound is written [::core::marker::Sized]
      here, so that no other [Sized] can be meant. *)
  Definition sized_bound : bound := BTrait false [] (Path true [seg1 "core"; seg1 "marker"; seg1 "Sized"]).
  Definition is_maybe (b : bound) : bool := match b with BTrait m _ _ => m | BLt _ => false end.
  Definition is_param (i : ident) (t : ty) : bool :=
    match t with TyPath None (Path false [Seg j GNone]) => String.eqb (name j) (name i) | _ => false end.
  Definition relaxes (i : ident) (w : wpred) : bool :=
    match w with WTy _ t bs => is_param i t && existsb is_maybe bs | WLt _ _ => false end.
  Definition implicit_pred (ws : list wpred) (p : gparam) : list wpred :=
    match p with
    | PTy i bs _ =>
      if existsb is_maybe bs || existsb (relaxes i) ws then []
      else [WTy [] (ty_ident i) [sized_bound]]
    | _ => []
    end.
  (** Inline bounds, implicit bounds and where clause. *)
  Definition all_preds (g : generics) : list wpred :=
    flat_map param_pred (g_params g) ++ flat_map (implicit_pred (where_of g)) (g_params g) ++ where_of g.

  Definition except (lts : list string) (f g : string -> LT U) : Prop := forall x, ~ In x lts -> f x = g x.

  Section Holds.
    (** [holds tr t]: the type [t] implements the trait [tr]. *)
    Variable holds : T -> T -> Prop.

    (** [?Trait] asks for nothing; [for<..>] quantifies over lifetimes. *)
    Definition bound_sat (E : E_) (d : T) (b : bound) : Prop :=
      match b with
      | BLt lt => se_outlives se d (lts_of E lt)
      | BTrait true _ _ => True
      | BTrait false lts p =>
        forall f, except lts f (lts_of E) -> holds (den_path (mkEnv (names E) f) p) d
      end.
    Definition pred_sat (E : E_) (w : wpred) : Prop :=
      match w with
      | WLt lt bs => forall b, In b bs -> se_lt_outlives se (lts_of E lt) (lts_of E b)
      | WTy lts t bs =>
        forall f, except lts f (lts_of E) ->
        forall b, In b bs -> bound_sat (mkEnv (names E) f) (den_ty (mkEnv (names E) f) t) b
      end.
    Definition generics_sat (E : E_) (g : generics) : Prop := forall w, In w (all_preds g) -> pred_sat E w.

    (** The impl [im] at [E], with its parameters instantiated, is for the trait
        [tr] and the type [t]. *)
    Definition matches (E : E_) (im : impl) (s : string -> T) (l : string -> LT U) (tr t : T) : Prop :=
      den_ty (header_env E (i_generics im) s l) (i_self im) = t /\
      exists p, i_trait im = Some p /\ den_path (impl_env E im s l) p = tr.

    Definition by_impl (tr t : T) : Prop :=
      exists E im s l, In (E, im) all_impls /\ matches E im s l tr t /\
        generics_sat (impl_env E im s l) (i_generics im).

    Definition unpin : T := u_inst U (se_lib se "Unpin") [].
    Definition unsafe_unpin : T := u_inst U (se_lib se "UnsafeUnpin") [].
    Definition drop_trait : T := u_inst U (se_lib se "Drop") [].
    Definition pinned_drop : T := u_inst U (se_lib se "PinnedDrop") [].
    Definition sized_trait : T := u_sel U (u_sel U (u_abs U "core" []) "marker" []) "Sized" [].

    (** Some impl of [Unpin] is for an instance of the definition [c]. *)
    Definition explicit_unpin (c : T) : Prop :=
      exists E im s l a, In (E, im) all_impls /\ matches E im s l unpin (u_inst U c a).
    (** The auto trait rule: without an explicit impl a type is [Unpin] when
        all its fields are. *)
    Definition by_fields (t : T) : Prop :=
      exists E c g fs s l, In (E, c, g, fs) definitions /\ t = u_inst U c (param_args (g_params g) s l) /\
        ~ explicit_unpin c /\
        forall f, In f fs ->
          holds unpin (den_ty (with_params (g_params g) s l (with_self t E)) (f_ty f)).

    (** Selection.  [PhantomData<T>] is [Unpin] when [T] is, and references
        always are ([core::marker]); [PhantomPinned] has no impl at all. *)
    Definition selected (tr t : T) : Prop :=
      by_impl tr t \/
      (tr = unpin /\ by_fields t) \/
      (tr = unpin /\ exists d, t = u_inst U (se_lib se "PhantomData") [DTy d] /\ holds unpin d) \/
      (tr = unpin /\ exists l m d, t = u_ref U l m d) \/
      se_other se tr t.
    Definition solution : Prop := forall tr t, holds tr t <-> selected tr t.
  End Holds.

  (** ** Overlap

      Two impls of one trait conflict unless the compiler can tell that some
      requirement of one of them fails wherever both match.  [fails E w] is what
      the compiler is able to tell. *)
  Definition conflict (fails : E_ -> wpred -> Prop) (x y : E_ * impl) : Prop :=
    exists s1 l1 s2 l2 tr t,
      matches (fst x) (snd x) s1 l1 tr t /\ matches (fst y) (snd y) s2 l2 tr t /\
      (forall w, In w (all_preds (i_generics (snd x))) -> ~ fails (impl_env (fst x) (snd x) s1 l1) w) /\
      (forall w, In w (all_preds (i_generics (snd y))) -> ~ fails (impl_env (fst y) (snd y) s2 l2) w).
  (** No two impls of the program conflict. *)
  Definition coherent (fails : E_ -> wpred -> Prop) : Prop :=
    forall i j x y, i <> j -> nth_error all_impls i = Some x -> nth_error all_impls j = Some y ->
    ~ conflict fails x y.

  (** ** Obligations of method bodies

      A statement [path::to::Trait::method(x)] inside an impl needs [Self] to
      implement the trait.  (The only such statement in generated code is the
      call of [PinnedDrop::drop], derive.rs:881.) *)
  Definition stmt_obligation (st : stmt) : list path :=
    match st with
    | SExpr (ACall f [_]) => [Path false (map (fun i => Seg i GNone) (removelast f))]
    | _ => []
    end.
  Definition body_obligations (b : body) : list path :=
    match b with BTail ss _ => flat_map stmt_obligation ss | BMatch ss _ _ => flat_map stmt_obligation ss end.
  Definition typechecks (holds : T -> T -> Prop) (x : E_ * impl) : Prop :=
    forall s l m p, In m (i_methods (snd x)) -> In p (body_obligations (m_body m)) ->
    generics_sat holds (impl_env (fst x) (snd x) s l) (i_generics (snd x)) ->
    holds (den_path (impl_env (fst x) (snd x) s l) p)
          (den_ty (header_env (fst x) (i_generics (snd x)) s l) (i_self (snd x))).
End Traits.
