(** C03 (expansion), C08 to C13: what the derive generates. *)
From Coq Require Import String Ascii List Bool.
From Verif Require Import Base Syntax ModelArgs ModelUtils ModelAttribute ModelDerive ModelPipeline.
From Verif Require Import SpecArgs SpecDerive SpecLifetime SpecExpand SpecRun SpecTraits SpecVis.
From Verif Require Import ProofsUtils ProofsDerive ProofsExpand ProofsTypes ProofsVis ProofsDecl ProofsFindings Examples.
Import ListNotations.
Open Scope string_scope.
Open Scope list_scope.

(** ** The items on which all theorems below are instantiated *)
Example struct_ex_accepted : is_ok (parse_derive (ItStruct (struct_ex args_struct))).
Proof. eexists. vm_compute. reflexivity. Qed.
Example struct_ex_options : options (s_attrs (struct_ex args_struct)) opts_struct.
Proof. apply parse_args_iff. vm_compute. reflexivity. Qed.
Example enum_ex_accepted : is_ok (parse_derive (ItEnum (enum_ex args_enum))).
Proof. eexists. vm_compute. reflexivity. Qed.
Example enum_ex_options : options (e_attrs (enum_ex args_enum)) opts_enum.
Proof. apply parse_args_iff. vm_compute. reflexivity. Qed.
Example struct_ex_ordered : ordered (g_params (s_generics (struct_ex args_struct))).
Proof.
  exists [PLt "'pin" []]. eexists. split; [reflexivity|]. split.
  - intros p [<-|[]]. reflexivity.
  - intros p [<-|[<-|[<-|[]]]]; reflexivity.
Qed.
Example enum_ex_ordered : ordered (g_params (e_generics (enum_ex args_enum))).
Proof.
  exists []. eexists. split; [reflexivity|]. split; [intros p []|]. intros p [<-|[]]. reflexivity.
Qed.

(** ** C03 *)
Theorem C03_never_replace_and_drop : forall it e, parse_derive it = Ok e ->
  ~ (In (I "project_replace") (map m_name (inherent_methods e)) /\
     exists x, In x (all_items e) /\ implements (support ["__private"; "Drop"]) x).
Proof. exact c03_expansion. Qed.
Print Assumptions C03_never_replace_and_drop.

(** Exactly these traits are implemented; in particular [Unpin] once, and with
    [UnsafeUnpin] in force no generated [UnsafeUnpin] impl. *)
Theorem C03_traits_struct : forall s e a,
  parse_derive (ItStruct s) = Ok e -> options (s_attrs s) a -> ordered (g_params (s_generics s)) ->
  trait_impls e = traits_of a (s_ident s) (applied (s_ident s) (map as_arg (g_params (s_generics s)))).
Proof. exact c03_traits_struct. Qed.
Print Assumptions C03_traits_struct.
Theorem C03_traits_enum : forall e x a,
  parse_derive (ItEnum e) = Ok x -> options (e_attrs e) a -> ordered (g_params (e_generics e)) ->
  trait_impls x = traits_of a (e_ident e) (applied (e_ident e) (map as_arg (g_params (e_generics e)))).
Proof. exact c03_traits_enum. Qed.
Print Assumptions C03_traits_enum.

Example C03_example :
  traits_of opts_enum (mkIdent true "Bar") (tid "X") =
  [(support ["__private"; "Unpin"], tid "X"); (support ["UnsafeUnpin"], tid "X"); (support ["__private"; "Drop"], tid "X")].
Proof. reflexivity. Qed.

(** ** C08 *)
Theorem C08_struct_methods : forall s e a, parse_derive (ItStruct s) = Ok e -> options (s_attrs s) a ->
  map m_name (inherent_methods e) = map proj_method (filter (fun k => struct_has k a) all_proj).
Proof. exact c08_struct. Qed.
Print Assumptions C08_struct_methods.
Theorem C08_enum_methods : forall e x a, parse_derive (ItEnum e) = Ok x -> options (e_attrs e) a ->
  map m_name (inherent_methods x) = map proj_method (filter (fun k => enum_has k a) all_proj).
Proof. exact c08_enum. Qed.
Print Assumptions C08_enum_methods.
Example C08_example :
  map proj_method (filter (fun k => struct_has k opts_struct) all_proj) = [I "project"; I "project_ref"; I "project_replace"] /\
  map proj_method (filter (fun k => enum_has k opts_enum) all_proj) = [I "project"; I "project_ref"] /\
  map proj_method (filter (fun k => enum_has k (mkArgs false UDefault None None PRNone)) all_proj) = [].
Proof. repeat split. Qed.

(** ** C09 *)
Theorem C09_struct_projected : forall s e a k,
  parse_derive (ItStruct s) = Ok e -> options (s_attrs s) a -> struct_has k a = true ->
  exists lt v g fs', pin_lifetime (s_generics s) lt /\
    In (OStruct v (proj_name k a (s_ident s)) g fs') (all_items e) /\
    fields_projected k lt (own_type (s_ident s) (s_generics s)) (s_fields s) fs'.
Proof. exact c09_struct. Qed.
Print Assumptions C09_struct_projected.
Theorem C09_struct_nothing_else : forall s e a v n g fs',
  parse_derive (ItStruct s) = Ok e -> options (s_attrs s) a ->
  In (OStruct v n g fs') (all_items e) ->
  (n = helper_name (s_ident s) /\ ar_unpin a = UDefault) \/
  exists k lt, struct_has k a = true /\ n = proj_name k a (s_ident s) /\ pin_lifetime (s_generics s) lt /\
    fields_projected k lt (own_type (s_ident s) (s_generics s)) (s_fields s) fs'.
Proof. exact c09_struct_only. Qed.
Print Assumptions C09_struct_nothing_else.
Theorem C09_struct_no_enum : forall s e v n g vs,
  parse_derive (ItStruct s) = Ok e -> ~ In (OEnum v n g vs) (all_items e).
Proof. exact c09_struct_enum. Qed.
Print Assumptions C09_struct_no_enum.
Theorem C09_enum_projected : forall e x a k,
  parse_derive (ItEnum e) = Ok x -> options (e_attrs e) a -> enum_has k a = true ->
  exists lt v g vs', pin_lifetime (e_generics e) lt /\
    In (OEnum v (proj_name k a (e_ident e)) g vs') (all_items x) /\
    Forall2 (variant_projected k lt (own_type (e_ident e) (e_generics e))) (e_variants e) vs'.
Proof. exact c09_enum. Qed.
Print Assumptions C09_enum_projected.
Theorem C09_enum_nothing_else : forall e x a v n g vs',
  parse_derive (ItEnum e) = Ok x -> options (e_attrs e) a ->
  In (OEnum v n g vs') (all_items x) ->
  exists k lt, enum_has k a = true /\ n = proj_name k a (e_ident e) /\ pin_lifetime (e_generics e) lt /\
    Forall2 (variant_projected k lt (own_type (e_ident e) (e_generics e))) (e_variants e) vs'.
Proof. exact c09_enum_only. Qed.
Print Assumptions C09_enum_nothing_else.
Theorem C09_enum_no_struct : forall e x a v n g fs',
  parse_derive (ItEnum e) = Ok x -> options (e_attrs e) a ->
  In (OStruct v n g fs') (all_items x) -> n = helper_name (e_ident e) /\ ar_unpin a = UDefault.
Proof. exact c09_enum_struct. Qed.
Print Assumptions C09_enum_no_struct.

(** [struct FooProj { a: Pin<&'pin__ mut (T)>, b: &'pin__ mut (Vec<Foo<..>>), .. }]:
    the four fields of the example, pinned ones being [a] and [c]. *)
Example C09_example :
  exists v g fs', In (OStruct v (I "Proj") g (FNamed fs'))
      (match parse_derive (ItStruct (struct_ex args_struct)) with Ok e => exposed e | _ => [] end) /\
    map f_ty fs' =
      [priv "Pin" (TyRef (Some "'pin__") true (TyParen (tid "T")));
       TyRef (Some "'pin__") true (TyParen (TyPath None (Path false [Seg (I "Vec") (GAngle false
         [ATy (TyPath None (Path false [Seg (I "Foo") (GAngle false [ALt "'pin"; ATy (tid "T"); ATy (tid "U"); ATy (tid "N")])]))])])));
       priv "Pin" (TyRef (Some "'pin__") true (TyParen
         (TyPath (Some (TyPath None (Path false [Seg (I "Foo") (GAngle false [ALt "'pin"; ATy (tid "T"); ATy (tid "U"); ATy (tid "N")])]), 0))
            (Path true [seg1 "Assoc"]))));
       TyRef (Some "'pin__") true (TyParen (TyRef (Some "'pin") false (tid "U")))].
Proof. do 3 eexists. split; [left; vm_compute; reflexivity|vm_compute; reflexivity]. Qed.

(** ** C10 *)
Theorem C10_struct_generics : forall s e a v n g fs',
  parse_derive (ItStruct s) = Ok e -> options (s_attrs s) a -> ordered (g_params (s_generics s)) ->
  In (OStruct v n g fs') (all_items e) ->
  (n = helper_name (s_ident s) /\ ar_unpin a = UDefault) \/
  exists k lt, struct_has k a = true /\ n = proj_name k a (s_ident s) /\ pin_lifetime (s_generics s) lt /\
    g_params g = projected_params k lt (spelled (s_ident s) (s_generics s)) /\
    preds g = projected_preds k lt (s_ident s) (s_generics s) (spelled (s_ident s) (s_generics s)).
Proof. exact c10_struct. Qed.
Print Assumptions C10_struct_generics.
Theorem C10_enum_generics : forall e x a v n g vs',
  parse_derive (ItEnum e) = Ok x -> options (e_attrs e) a -> ordered (g_params (e_generics e)) ->
  In (OEnum v n g vs') (all_items x) ->
  exists k lt, enum_has k a = true /\ n = proj_name k a (e_ident e) /\ pin_lifetime (e_generics e) lt /\
    g_params g = projected_params k lt (spelled (e_ident e) (e_generics e)) /\
    preds g = projected_preds k lt (e_ident e) (e_generics e) (spelled (e_ident e) (e_generics e)).
Proof. exact c10_enum. Qed.
Print Assumptions C10_enum_generics.
(** The one impl of the methods and their signatures. *)
Theorem C10_struct_methods : forall s e a,
  parse_derive (ItStruct s) = Ok e -> options (s_attrs s) a -> ordered (g_params (s_generics s)) ->
  exists im lt, inherent_impls (all_items e) = [im] /\ pin_lifetime (s_generics s) lt /\
    projection_impl (filter (fun k => struct_has k a) all_proj) lt a (s_ident s) (s_generics s) im.
Proof. exact c10_impl_struct. Qed.
Print Assumptions C10_struct_methods.
Theorem C10_enum_methods : forall e x a,
  parse_derive (ItEnum e) = Ok x -> options (e_attrs e) a -> ordered (g_params (e_generics e)) ->
  exists im lt, inherent_impls (all_items x) = [im] /\ pin_lifetime (e_generics e) lt /\
    projection_impl (filter (fun k => enum_has k a) all_proj) lt a (e_ident e) (e_generics e) im.
Proof. exact c10_impl_enum. Qed.
Print Assumptions C10_enum_methods.

(** The helper struct of the default mode. *)
Theorem C10_helper_generics : forall it e a v g fs,
  parse_derive it = Ok e -> options (attrs_of it) a -> ordered (params_of it) ->
  In (OStruct v (helper_name (name_of it)) g fs) (scoped e) ->
  exists lt, pin_lifetime (generics_of it) lt /\
    g_params g = PLt lt [] :: g_params (spelled (name_of it) (generics_of it)) /\
    preds g = preds (spelled (name_of it) (generics_of it)).
Proof. exact c10_helper_generics. Qed.
Print Assumptions C10_helper_generics.
(** The trait impls: those of [Drop] and [PinnedDrop] are exactly as general as
    the type, those of [Unpin] and [UnsafeUnpin] have one more lifetime and one
    more predicate (which C26 to C30 are about). *)
Theorem C10_trait_impls : forall it e a im tr,
  parse_derive it = Ok e -> options (attrs_of it) a -> ordered (params_of it) ->
  In (OImpl im) (all_items e) -> i_trait im = Some tr ->
  (tr = support ["__private"; "Unpin"] \/ tr = support ["UnsafeUnpin"] ->
   exists lt w, pin_lifetime (generics_of it) lt /\
     g_params (i_generics im) = PLt lt [] :: map without_default (g_params (spelled (name_of it) (generics_of it))) /\
     preds (i_generics im) = preds (spelled (name_of it) (generics_of it)) ++ [w]) /\
  (tr = support ["__private"; "Drop"] \/ tr = support ["__private"; "PinnedDrop"] ->
   g_params (i_generics im) = map without_default (g_params (spelled (name_of it) (generics_of it))) /\
   preds (i_generics im) = preds (spelled (name_of it) (generics_of it))).
Proof. exact c10_headers. Qed.
Print Assumptions C10_trait_impls.

(** [struct Proj<'pin__, 'pin, T: Bound<Foo<..>>, U = u8, const N: usize>] *)
Example C10_example :
  map as_arg (projected_params PMut "'pin__" (spelled (I "Foo") generics_ex)) =
    [ALt "'pin__"; ALt "'pin"; ATy (tid "T"); ATy (tid "U"); ATy (tid "N")] /\
  length (projected_preds PMut "'pin__" (I "Foo") generics_ex (spelled (I "Foo") generics_ex)) = 3.
Proof. split; reflexivity. Qed.

(** A helper struct and an impl of [Unpin]. *)
Example C10_helper_example : exists e v g fs im,
  parse_derive (ItStruct (struct_ex [])) = Ok e /\
  In (OStruct v (helper_name (I "Foo")) g fs) (scoped e) /\
  In (OImpl im) (all_items e) /\ i_trait im = Some (support ["__private"; "Unpin"]) /\
  map as_arg (g_params (i_generics im)) = [ALt "'pin__"; ALt "'pin"; ATy (tid "T"); ATy (tid "U"); ATy (tid "N")].
Proof. do 5 eexists. split; [vm_compute; reflexivity|]. split; [do 5 right; left; reflexivity|]. split; [do 6 right; left; reflexivity|]. split; reflexivity. Qed.

(** ** C11 *)
Theorem C11_unique : forall g, exists lt, pin_lifetime g lt /\ forall lt', pin_lifetime g lt' -> lt' = lt.
Proof. exact pin_lifetime_ex. Qed.
Print Assumptions C11_unique.
Theorem C11_fresh : forall g lt, pin_lifetime g lt -> ~ declared g lt.
Proof. exact pin_lifetime_fresh. Qed.
Print Assumptions C11_fresh.
(** The example declares ['pin] and [for<'pin_>]; the inserted lifetime is ['pin__]. *)
Example C11_example : pin_lifetime generics_ex "'pin__".
Proof.
  exact (pin_lifetime_det (generics_ex)).
Qed.
(** Finding F3.  Lifetimes bound inside field types are not looked at; with
    [f: for<'pin> fn(&'pin u8)] the inserted lifetime shadows one in scope (E0496). *)
Theorem C11_field_binders_refuted : exists s e f lt,
  parse_derive (ItStruct s) = Ok e /\ pin_lifetime (s_generics s) lt /\
  In f (fields_list (s_fields s)) /\ binds_ty lt (f_ty f).
Proof. exact field_binder. Qed.
Print Assumptions C11_field_binders_refuted.

(** ** C12 *)
Theorem C12_struct_names : forall s e a, parse_derive (ItStruct s) = Ok e -> options (s_attrs s) a ->
  flat_map introduces (exposed e) = flat_map (fun k => opt_given k a) all_proj /\
  flat_map introduces (scoped e) =
    [I "_pin_project"] ++ flat_map (fun k => struct_hidden k a (s_ident s)) all_proj ++
    [I "__assert_not_repr_packed"] ++
    (if is_default a then [helper_name (s_ident s)] else []) ++
    (if ar_pinned_drop a then [] else [drop_guard_name (s_ident s)]).
Proof. exact c12_struct. Qed.
Print Assumptions C12_struct_names.
Theorem C12_enum_names : forall e x a, parse_derive (ItEnum e) = Ok x -> options (e_attrs e) a ->
  flat_map introduces (exposed x) = flat_map (fun k => opt_given k a) all_proj /\
  flat_map introduces (scoped x) =
    [I "_pin_project"] ++
    (if is_default a then [helper_name (e_ident e)] else []) ++
    (if ar_pinned_drop a then [] else [drop_guard_name (e_ident e)]).
Proof. exact c12_enum. Qed.
Print Assumptions C12_enum_names.
Theorem C12_only_types_exposed : forall it e x, parse_derive it = Ok e -> In x (exposed e) ->
  (exists v n g fs, x = OStruct v n g fs) \/ (exists v n g vs, x = OEnum v n g vs).
Proof. exact c12_exposed. Qed.
Print Assumptions C12_only_types_exposed.
Example C12_example :
  flat_map (fun k => opt_given k opts_struct) all_proj = [I "Proj"; I "Own"] /\
  flat_map (fun k => struct_hidden k opts_struct (I "Foo")) all_proj = [I "__FooProjectionRef"].
Proof. split; reflexivity. Qed.

(** ** C13

    In the 2018 edition and later: whatever visibility is written, if the
    generated one is legal at all, it grants the same access. *)
Theorem C13_struct_types : forall s e a v n g fs' m,
  parse_derive (ItStruct s) = Ok e -> options (s_attrs s) a ->
  In (OStruct v n g fs') (all_items e) -> n <> helper_name (s_ident s) ->
  legal Rust2018 m (s_vis s) -> legal Rust2018 m v -> same_in_crate Rust2018 m (s_vis s) v.
Proof. exact c13_struct. Qed.
Print Assumptions C13_struct_types.
Theorem C13_enum_types : forall e x a v n g vs' m,
  parse_derive (ItEnum e) = Ok x -> options (e_attrs e) a ->
  In (OEnum v n g vs') (all_items x) ->
  legal Rust2018 m (e_vis e) -> legal Rust2018 m v -> same_in_crate Rust2018 m (e_vis e) v.
Proof. exact c13_enum. Qed.
Print Assumptions C13_enum_types.
Theorem C13_struct_methods : forall s e me m, parse_derive (ItStruct s) = Ok e -> In me (inherent_methods e) ->
  legal Rust2018 m (s_vis s) -> legal Rust2018 m (m_vis me) -> same_in_crate Rust2018 m (s_vis s) (m_vis me).
Proof. exact c13_struct_methods. Qed.
Print Assumptions C13_struct_methods.
Theorem C13_enum_methods : forall e x me m, parse_derive (ItEnum e) = Ok x -> In me (inherent_methods x) ->
  legal Rust2018 m (e_vis e) -> legal Rust2018 m (m_vis me) -> same_in_crate Rust2018 m (e_vis e) (m_vis me).
Proof. exact c13_enum_methods. Qed.
Print Assumptions C13_enum_methods.
Theorem C13_struct_fields : forall s e a v n g fs' m,
  parse_derive (ItStruct s) = Ok e -> options (s_attrs s) a ->
  In (OStruct v n g fs') (all_items e) -> n <> helper_name (s_ident s) ->
  (forall f, In f (fields_list fs') -> legal Rust2018 m (f_vis f)) ->
  map f_vis (fields_list fs') = map f_vis (fields_list (s_fields s)).
Proof. exact struct_field_vis_legal. Qed.
Print Assumptions C13_struct_fields.

(** The helper struct, which is named in the bounds of the [Unpin] impl, is as
    visible as the type. *)
Theorem C13_helper : forall it e a v g fs m,
  parse_derive it = Ok e -> options (attrs_of it) a -> ordered (params_of it) ->
  In (OStruct v (helper_name (name_of it)) g fs) (scoped e) -> legal Rust2018 m v -> v = vis_of it.
Proof. exact c13_helper. Qed.
Print Assumptions C13_helper.

(** In every edition, for every spelling but [pub(self)]: the generated
    visibility is legal and grants the same access. *)
Theorem C13_struct_types_partial : forall s e a v n g fs' ed m,
  parse_derive (ItStruct s) = Ok e -> options (s_attrs s) a ->
  In (OStruct v n g fs') (all_items e) -> n <> helper_name (s_ident s) ->
  ~ is_pub_self (s_vis s) -> legal ed m (s_vis s) -> same_in_crate ed m (s_vis s) v.
Proof. exact c13_struct_any. Qed.
Print Assumptions C13_struct_types_partial.
Theorem C13_enum_types_partial : forall e x a v n g vs' ed m,
  parse_derive (ItEnum e) = Ok x -> options (e_attrs e) a ->
  In (OEnum v n g vs') (all_items x) ->
  ~ is_pub_self (e_vis e) -> legal ed m (e_vis e) -> same_in_crate ed m (e_vis e) v.
Proof. exact c13_enum_any. Qed.
Print Assumptions C13_enum_types_partial.
Theorem C13_struct_methods_partial : forall s e me ed m, parse_derive (ItStruct s) = Ok e ->
  In me (inherent_methods e) ->
  ~ is_pub_self (s_vis s) -> legal ed m (s_vis s) -> same_in_crate ed m (s_vis s) (m_vis me).
Proof. exact c13_struct_methods_any. Qed.
Print Assumptions C13_struct_methods_partial.
Theorem C13_enum_methods_partial : forall e x me ed m, parse_derive (ItEnum e) = Ok x ->
  In me (inherent_methods x) ->
  ~ is_pub_self (e_vis e) -> legal ed m (e_vis e) -> same_in_crate ed m (e_vis e) (m_vis me).
Proof. exact c13_enum_methods_any. Qed.
Print Assumptions C13_enum_methods_partial.
Theorem C13_struct_fields_partial : forall s e a v n g fs',
  parse_derive (ItStruct s) = Ok e -> options (s_attrs s) a ->
  In (OStruct v n g fs') (all_items e) -> n <> helper_name (s_ident s) ->
  (forall f, In f (fields_list (s_fields s)) -> ~ is_pub_self (f_vis f)) ->
  map f_vis (fields_list fs') = map f_vis (fields_list (s_fields s)).
Proof. exact struct_field_vis. Qed.
Print Assumptions C13_struct_fields_partial.

Theorem C13_helper_partial : forall it e a v g fs,
  parse_derive it = Ok e -> options (attrs_of it) a -> ordered (params_of it) ->
  In (OStruct v (helper_name (name_of it)) g fs) (scoped e) -> ~ is_pub_self (vis_of it) -> v = vis_of it.
Proof. exact c13_helper_any. Qed.
Print Assumptions C13_helper_partial.

(** [pub] and [pub(super)] items in module [crate::a::b]. *)
Example C13_example : forall ed,
  ~ is_pub_self (s_vis (struct_ex args_struct)) /\ legal ed [I "a"; I "b"] (s_vis (struct_ex args_struct)) /\
  ~ is_pub_self (e_vis (enum_ex args_enum)) /\ legal ed [I "a"; I "b"] (e_vis (enum_ex args_enum)) /\
  (forall f, In f fields_ex -> ~ is_pub_self (f_vis f)).
Proof.
  intros ed. split; [intros [b H]; discriminate|]. split; [exact Logic.I|]. split; [intros [b H]; discriminate|]. split.
  - exists [I "a"]. split; [reflexivity|]. exists [I "b"]. reflexivity.
  - intros f [<-|[<-|[<-|[<-|[]]]]] [b H]; discriminate.
Qed.

(** Finding F7.  [pub(self) struct S { .. }] has its visibility turned into
    [pub(__self)], which is no legal visibility in most crates.  In a crate of
    the 2015 edition with a module [__self] at its root, [pub(in self)] there
    in a child module becomes visible to all of [__self]. *)
Theorem C13_pub_self_refuted : exists s e a v n g fs' m,
  parse_derive (ItStruct s) = Ok e /\ options (s_attrs s) a /\ legal Rust2018 m (s_vis s) /\
  In (OStruct v n g fs') (all_items e) /\ n <> helper_name (s_ident s) /\ ~ same_in_crate Rust2018 m (s_vis s) v.
Proof. exact pub_self_breaks. Qed.
Print Assumptions C13_pub_self_refuted.
Theorem C13_grows_refuted : exists s e a v n g fs' m w,
  parse_derive (ItStruct s) = Ok e /\ options (s_attrs s) a /\ legal Rust2015 m (s_vis s) /\
  In (OStruct v n g fs') (all_items e) /\ n <> helper_name (s_ident s) /\ legal Rust2015 m v /\
  visible Rust2015 m v w /\ ~ visible Rust2015 m (s_vis s) w.
Proof. exact pub_self_grows. Qed.
Print Assumptions C13_grows_refuted.
