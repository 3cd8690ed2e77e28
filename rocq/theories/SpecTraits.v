(** Vocabulary for the properties about traits: what is assumed of Rust, and of
    the names in the surrounding program. *)
From Coq Require Import String List Bool.
From Verif Require Import Base Syntax ModelArgs ModelUtils ModelDerive ModelMeaning ModelTraits
  SpecArgs SpecDerive SpecLifetime SpecExpand SpecRun SpecMeaning.
Import ListNotations.
Open Scope string_scope.
Open Scope list_scope.

Definition generics_of (it : item) : generics :=
  match it with ItStruct s => s_generics s | ItEnum e => e_generics e | ItOther => mkGenerics [] None end.

(** The entities that matter: the item, what the expansion defines inside
    [const _], what the support crate offers. *)
Inductive entity : Type := EItem | EGen (x : string) | ELib (x : string).

Section Spec.
  Variable se : setting.
  Notation U := (se_univ se).
  Notation T := (D U).
  Notation E_ := (env T (LT U)).

  (** ** The item *)
  Definition item_name : string := name (name_of (se_item se)).
  Definition item_params : list gparam := g_params (generics_of (se_item se)).
  (** The type, its parameters instantiated by [s] and [l]. *)
  Definition item_at (s : string -> T) (l : string -> LT U) : T :=
    u_inst U (se_def se) (param_args item_params s l).
  (** Inside the definition of the item. *)
  Definition place (s : string -> T) (l : string -> LT U) : E_ :=
    with_params item_params s l (with_self (item_at s l) (se_outer se)).
  (** Bounds and where clause of the item hold. *)
  Definition where_holds (holds : T -> T -> Prop) (s : string -> T) (l : string -> LT U) : Prop :=
    generics_sat se holds (place s l) (generics_of (se_item se)).
  Definition pinned_field (f : field) : Prop :=
    exists fs, In fs (fields_of (se_item se)) /\ In f (fields_list fs) /\ pinned f.
  Definition type_at (s : string -> T) (l : string -> LT U) (f : field) : T := den_ty (place s l) (f_ty f).

  (** The types of the pinned fields, in order. *)
  Definition pinned_tys_of (it : item) : list ty :=
    flat_map (fun fs => map f_ty (filter is_pinned (fields_list fs))) (fields_of it).
  (** Inside the helper struct, which has one more lifetime parameter. *)
  Definition in_helper (gg : generics) (s : string -> T) (l : string -> LT U) : E_ :=
    with_params (g_params gg) s l
      (with_self (u_inst U (se_gen se (name (helper_name (name_of (se_item se))))) (param_args (g_params gg) s l)) (inner_env se)).
  (** The same program with another item in the place of this one.  What holds
      by other rules of the language may depend on it: whether it is [Sized]. *)
  Definition with_item (it : item) (e : expansion) (other : T -> T -> Prop) : setting :=
    mkSetting U (se_outer se) it e (se_def se) (se_gen se) (se_lib se) (se_impls se) other
      (se_outlives se) (se_lt_outlives se).

  (** An impl, with its place, is for [tr] and [t] and its requirements hold. *)
  Definition applies (holds : T -> T -> Prop) (x : E_ * impl) (tr t : T) : Prop :=
    exists s l, matches se (fst x) (snd x) s l tr t /\
      generics_sat se holds (impl_env se (fst x) (snd x) s l) (i_generics (snd x)).

  (** ** Rust *)
  Definition lib_names : list string :=
    ["Wrapper"; "AlwaysUnpin"; "PhantomPinned"; "PhantomData"; "PinnedFieldsOfHelperStruct";
     "Unpin"; "UnsafeUnpin"; "Drop"; "PinnedDrop"].
  Definition the_traits : list T := [unpin se; unsafe_unpin se; drop_trait se; pinned_drop se].
  Definition entity_def (e : entity) : T :=
    match e with EItem => se_def se | EGen x => se_gen se x | ELib x => se_lib se x end.
  Definition known (e : entity) : Prop := match e with ELib x => In x lib_names | _ => True end.
  Definition crate_ : T := u_extern U "pin_project".
  (** [T] of the support crate's generic items. *)
  Definition t_is (d : T) : E_ := with_params [PTy (I "T") [] None] (fun _ => d) (fun _ => u_elided U) (lib_env se).

  (** [Sized] holds by the rules of the language; for the item, of all fields. *)
  Definition has_size (t : T) : Prop := se_other se (sized_trait se) t.
  Definition sized_at (s : string -> T) (l : string -> LT U) : Prop :=
    forall fs f, In fs (fields_of (se_item se)) -> In f (fields_list fs) -> has_size (type_at s l f).

  Record rust : Prop := {
    (* the derive accepted the item and printed the expansion *)
    ru_derive : parse_derive (se_item se) = Ok (se_exp se);
    (* the name of the item refers to it *)
    ru_name : names (se_outer se) item_name = HDef (se_def se);
    (* lifetime parameters come first *)
    ru_ordered : ordered item_params;
    (* struct, enum and trait types are equal only when the definitions and all
       arguments are; a reference is none of them *)
    ru_nominal : forall e e' a a', known e -> known e' ->
      u_inst U (entity_def e) a = u_inst U (entity_def e') a' -> e = e' /\ a = a';
    ru_ref : forall e l m d a, known e -> u_ref U l m d <> u_inst U (entity_def e) a;
    (* paths of the support crate; its type alias and associated type *)
    ru_private : forall x a, u_sel U (u_sel U crate_ "__private" []) x a = u_inst U (se_lib se x) a;
    ru_unsafe_unpin : u_sel U crate_ "UnsafeUnpin" [] = unsafe_unpin se;
    ru_alias : forall d, u_inst U (se_lib se "PinnedFieldsOf") [DTy d] = den_ty (t_is d) pinned_fields_of_alias;
    ru_actual : forall d,
      u_proj U (u_inst U (se_lib se "PinnedFieldsOfHelperStruct") [DTy d])
        (u_inst U (se_lib se "PinnedFieldsOfHelperTrait") []) "Actual" [] = den_ty (t_is d) actual;
    (* no other rule of the language gives these traits to these types *)
    ru_other : forall tr e a, In tr the_traits -> known e -> ~ se_other se tr (u_inst U (entity_def e) a);
    (* orphan rule; and what is defined inside [const _] cannot be named outside *)
    ru_orphan : forall E im s l tr e a, In (E, im) (se_impls se) -> In tr the_traits -> known e ->
      matches se E im s l tr (u_inst U (entity_def e) a) -> e = EItem;
    (* [Sized] is built in: the item is if its fields are, and so are tuples;
       [PhantomData] always is *)
    ru_sized_item : forall s l, has_size (item_at s l) <-> sized_at s l;
    ru_sized_tuple : forall l, (forall d, In d l -> has_size d) -> has_size (u_tuple U l);
    ru_sized_phantom : forall d, has_size (u_inst U (se_lib se "PhantomData") [DTy d])
  }.

  (** The types in impl headers are well formed: where an impl for the item
      applies, the item's own bounds hold. *)
  Definition headers_ok (holds : T -> T -> Prop) : Prop :=
    forall E im s l tr a, In (E, im) (se_impls se) -> matches se E im s l tr (u_inst U (se_def se) a) ->
    generics_sat se holds (impl_env se E im s l) (i_generics im) ->
    exists s0 l0, a = param_args item_params s0 l0 /\ where_holds holds s0 l0.

  (** [_pin_project::__private::PinnedFieldsOf<t>]. *)
  Definition pinned_fields_of (t : ty) : ty :=
    TyPath None (Path false [seg1 "_pin_project"; seg1 "__private"; Seg (I "PinnedFieldsOf") (GAngle false [ATy t])]).

  (** What the overlap check can tell: only requirements that do fail, and
      nothing about the foreign associated type behind [PinnedFieldsOf], which
      may change in a later version of the support crate (src/lib.rs:251-296). *)
  Record refuter (holds : T -> T -> Prop) (fails : E_ -> wpred -> Prop) : Prop := {
    rf_sound : forall E w, fails E w -> ~ pred_sat se holds E w;
    rf_foreign : forall E lts t bs, names E "_pin_project" = HDone crate_ ->
      ~ fails E (WTy lts (pinned_fields_of t) bs)
  }.
  (** For the local type it can tell when there is no [Drop] impl. *)
  Definition refutes_drop (holds : T -> T -> Prop) (fails : E_ -> wpred -> Prop) : Prop :=
    forall E i p s l, names E (name i) = HDone (item_at s l) ->
    (forall f, den_path (mkEnv (names E) f) p = drop_trait se) -> ~ holds (drop_trait se) (item_at s l) ->
    fails E (WTy [] (ty_ident i) [BTrait false [] p]).

  (** And when it is not [Sized]. *)
  Definition refutes_sized (holds : T -> T -> Prop) (fails : E_ -> wpred -> Prop) : Prop :=
    forall E i s l, names E (name i) = HDone (item_at s l) -> ~ holds (sized_trait se) (item_at s l) ->
    fails E (WTy [] (ty_ident i) [sized_bound]).

  (** The traits that the expansion implements for the item: [Unpin] always,
      [UnsafeUnpin] unless it was left to the user with [UnsafeUnpin], and
      [Drop] with [PinnedDrop], else [PinnedDrop]. *)
  Definition implemented (a : args) : list T :=
    unpin se :: match ar_unpin a with UUnsafe => [] | _ => [unsafe_unpin se] end ++
    [if ar_pinned_drop a then drop_trait se else pinned_drop se].
  (** Traits that are defined inside [const _] cannot be named outside. *)
  Definition traits_private : Prop :=
    forall E im s l x b t, In (E, im) (se_impls se) -> ~ matches se E im s l (u_inst U (se_gen se x) b) t.

  (** A program that compiles: the laws above, [holds] and [fails] as the
      compiler computes them, no overlapping impls and all bodies checked. *)
  Record compiles (holds : T -> T -> Prop) (fails : E_ -> wpred -> Prop) : Prop := {
    co_rust : rust;
    co_solution : solution se holds;
    co_headers : headers_ok holds;
    co_refuter : refuter holds fails;
    co_coherent : coherent se fails;
    co_bodies : forall x, In x (generated_impls se) -> typechecks se holds x
  }.

  (** ** Names

      The names that the expansion introduces inside [const _]. *)
  Definition hidden (x : string) : Prop :=
    In x (map name (flat_map introduces (scoped (se_exp se)))).
  (** What the user wrote in the generics and in the types of pinned fields. *)
  Definition written : list node :=
    nodes_generics (generics_of (se_item se)) ++
    flat_map (fun fs => flat_map (fun f => if is_pinned f then nodes_ty (f_ty f) else []) (fields_list fs))
      (fields_of (se_item se)).
  (** [lt] is bound by a [for<..>] somewhere in there. *)
  Inductive binder (lt : string) : Prop :=
  | Bi_field f : pinned_field f -> binds_ty lt (f_ty f) -> binder lt
  | Bi_bound i bs d b : In (PTy i bs d) item_params -> In b bs -> binds_bound lt b -> binder lt
  | Bi_for lts t bs : In (WTy lts t bs) (preds (generics_of (se_item se))) -> In lt lts -> binder lt
  | Bi_where lts t bs : In (WTy lts t bs) (preds (generics_of (se_item se))) -> binds_ty lt t -> binder lt
  | Bi_where_bound lts t bs b : In (WTy lts t bs) (preds (generics_of (se_item se))) -> In b bs ->
      binds_bound lt b -> binder lt.

  (** The item is legal Rust: [self] and [Self] are used as keywords, and
      [for<..>] does not shadow a lifetime parameter. *)
  Record legal : Prop := {
    lg_self : self_legal written;
    lg_Self : ~ In NOddSelf written;
    lg_name : item_name <> "Self";
    lg_params : ~ In "Self" (param_names item_params);
    lg_binders : forall lt, In lt (param_lts item_params) -> ~ binder lt
  }.

  (** The type spelled out: [Foo<'a, T, N>]. *)
  Definition spelled_self : ty := applied (name_of (se_item se)) (map as_arg item_params).

  (** The names of the item and of its parameters are not hidden, and differ. *)
  Record visible : Prop := {
    vi_item : ~ hidden item_name /\ ~ In item_name (param_names item_params);
    vi_params : forall x, In x (param_names item_params) -> ~ hidden x
  }.
  (** Nothing the user wrote is captured by the expansion: no name that is
      looked up is one of the hidden ones, the lifetime [pin] is not used, and
      macros in type position depend neither on those nor on how [Self] is
      spelled. *)
  Record uncaptured : Prop := {
    un_visible : visible;
    un_names : forall x, looks_up written x -> ~ hidden x;
    un_pin : forall pin, pin_lifetime (generics_of (se_item se)) pin -> ~ In (NLt pin) written;
    un_spelled : forall n f0, n "Self" = HDone (den_ty (mkEnv n f0) spelled_self) ->
      macros_spelled U n spelled_self written;
    un_macros : forall pin n1 n2 f g m ts, pin_lifetime (generics_of (se_item se)) pin ->
      In (NMacro m ts) written ->
      (forall x, ~ hidden x -> x <> "Self" -> n1 x = n2 x) -> same_but pin f g ->
      u_macro U (mkEnv n1 f) m (visit_macro (print_ty spelled_self) ts) =
      u_macro U (mkEnv n2 g) m (visit_macro (print_ty spelled_self) ts)
  }.
End Spec.
