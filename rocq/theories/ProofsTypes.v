(** The properties of the expansion, derived from its closed form. *)
From Coq Require Import String Ascii List Bool Arith Lia.
From Verif Require Import Base Syntax SyntaxInd ModelArgs ModelUtils ModelDerive.
From Verif Require Import SpecArgs SpecDerive SpecLifetime SpecExpand ProofsArgs ProofsUtils ProofsRepr ProofsDerive ProofsExpand.
Import ListNotations.
Open Scope string_scope.
Open Scope list_scope.

(** Brings the expansion into closed form. *)
Lemma struct_form s e a : parse_derive (ItStruct s) = Ok e -> options (s_attrs s) a ->
  accepts_struct s a /\ e = struct_out (struct_cx a (spelled_struct s)) (s_fields (spelled_struct s)).
Proof.
  intros H Ho. apply parse_derive_struct in H. destruct H as (b & Hb & ->).
  assert (b = a) as -> by (eapply options_unique; [apply (as_options _ _ Hb)|exact Ho]). auto.
Qed.
Lemma enum_form e x a : parse_derive (ItEnum e) = Ok x -> options (e_attrs e) a ->
  accepts_enum e a /\ x = enum_out (enum_cx a (spelled_enum e)) (e_variants (spelled_enum e)).
Proof.
  intros H Ho. apply parse_derive_enum in H. destruct H as (b & Hb & ->).
  assert (b = a) as -> by (eapply options_unique; [apply (ae_options _ _ Hb)|exact Ho]). auto.
Qed.

(** ** C08 *)
Lemma c08_struct s e a : parse_derive (ItStruct s) = Ok e -> options (s_attrs s) a ->
  map m_name (inherent_methods e) = map proj_method (filter (fun k => struct_has k a) all_proj).
Proof. intros H Ho. destruct (struct_form _ _ _ H Ho) as [_ ->]. apply struct_methods. Qed.
Lemma c08_enum e x a : parse_derive (ItEnum e) = Ok x -> options (e_attrs e) a ->
  map m_name (inherent_methods x) = map proj_method (filter (fun k => enum_has k a) all_proj).
Proof.
  intros H Ho. destruct (enum_form _ _ _ H Ho) as [Ha ->]. apply enum_methods.
  apply (ae_replace_named _ _ Ha).
Qed.

(** ** C09 *)
Lemma c09_struct s e a k : parse_derive (ItStruct s) = Ok e -> options (s_attrs s) a -> struct_has k a = true ->
  exists lt v g fs', pin_lifetime (s_generics s) lt /\
    In (OStruct v (proj_name k a (s_ident s)) g fs') (all_items e) /\
    fields_projected k lt (own_type (s_ident s) (s_generics s)) (s_fields s) fs'.
Proof.
  intros H Ho Hk. destruct (struct_form _ _ _ H Ho) as [_ ->].
  pose proof (struct_kind_in k a (struct_cx a (spelled_struct s)) (s_fields (spelled_struct s)) eq_refl Hk) as Hin.
  rewrite struct_kind_eq in Hin.
  do 4 eexists. split; [apply struct_lt_ok|]. split.
  - unfold all_items. apply in_or_app. destruct (is_some (given_name k a)); [left|right]; exact Hin.
  - rewrite <- self_type_own. apply fields_projected_kty.
Qed.
Lemma c09_struct_only s e a v n g fs' : parse_derive (ItStruct s) = Ok e -> options (s_attrs s) a ->
  In (OStruct v n g fs') (all_items e) ->
  (n = helper_name (s_ident s) /\ ar_unpin a = UDefault) \/
  exists k lt, struct_has k a = true /\ n = proj_name k a (s_ident s) /\ pin_lifetime (s_generics s) lt /\
    fields_projected k lt (own_type (s_ident s) (s_generics s)) (s_fields s) fs'.
Proof.
  intros H Ho Hin. destruct (struct_form _ _ _ H Ho) as [_ ->].
  apply struct_types_only in Hin. destruct Hin as [Hin|(k & Hk & E)]; [left; exact Hin|right].
  rewrite struct_kind_eq in E. injection E as -> -> -> ->.
  exists k, (struct_lt s). split; [exact Hk|]. split; [reflexivity|]. split; [apply struct_lt_ok|].
  rewrite <- self_type_own. apply fields_projected_kty.
Qed.
Lemma c09_enum e x a k : parse_derive (ItEnum e) = Ok x -> options (e_attrs e) a -> enum_has k a = true ->
  exists lt v g vs', pin_lifetime (e_generics e) lt /\
    In (OEnum v (proj_name k a (e_ident e)) g vs') (all_items x) /\
    Forall2 (variant_projected k lt (own_type (e_ident e) (e_generics e))) (e_variants e) vs'.
Proof.
  intros H Ho Hk. destruct (enum_form _ _ _ H Ho) as [_ ->].
  pose proof (enum_kind_in k a (enum_cx a (spelled_enum e)) (e_variants (spelled_enum e)) eq_refl Hk) as Hin.
  rewrite enum_kind_eq in Hin.
  do 4 eexists. split; [apply enum_lt_ok|]. split.
  - unfold all_items. apply in_or_app. left; exact Hin.
  - rewrite <- self_type_own. apply variants_projected.
Qed.
Lemma c09_enum_only e x a v n g vs' : parse_derive (ItEnum e) = Ok x -> options (e_attrs e) a ->
  In (OEnum v n g vs') (all_items x) ->
  exists k lt, enum_has k a = true /\ n = proj_name k a (e_ident e) /\ pin_lifetime (e_generics e) lt /\
    Forall2 (variant_projected k lt (own_type (e_ident e) (e_generics e))) (e_variants e) vs'.
Proof.
  intros H Ho Hin. destruct (enum_form _ _ _ H Ho) as [Ha ->].
  apply enum_types_only in Hin; [|apply (ae_replace_named _ _ Ha)]. destruct Hin as (k & Hk & E).
  rewrite enum_kind_eq in E. injection E as -> -> -> ->.
  exists k, (enum_lt e). split; [exact Hk|]. split; [reflexivity|]. split; [apply enum_lt_ok|].
  rewrite <- self_type_own. apply variants_projected.
Qed.
(** An enum gets no projected struct, a struct no projected enum. *)
Lemma c09_enum_struct e x a v n g fs' : parse_derive (ItEnum e) = Ok x -> options (e_attrs e) a ->
  In (OStruct v n g fs') (all_items x) -> n = helper_name (e_ident e) /\ ar_unpin a = UDefault.
Proof.
  intros H Ho Hin. destruct (enum_form _ _ _ H Ho) as [_ ->]. apply enum_structs_only in Hin. exact Hin.
Qed.
Lemma c09_struct_enum s e v n g vs : parse_derive (ItStruct s) = Ok e -> ~ In (OEnum v n g vs) (all_items e).
Proof.
  intros H. apply parse_derive_struct in H. destruct H as (a & _ & ->). apply struct_no_enum.
Qed.

(** ** C10 *)
Lemma kdef_struct k a s : ordered (g_params (s_generics s)) ->
  kdef k (struct_cx a (spelled_struct s)) =
  mkGenerics (projected_params k (struct_lt s) (spelled (s_ident s) (s_generics s)))
    (Some (projected_preds k (struct_lt s) (s_ident s) (s_generics s) (spelled (s_ident s) (s_generics s)))).
Proof.
  intros H. unfold spelled. rewrite <- self_type_own.
  assert (Hr := ordered_replace (self_type (s_ident s) (s_generics s)) _ H).
  assert (Hp : pdef (struct_cx a (spelled_struct s)) =
    mkGenerics (PLt (struct_lt s) [] :: g_params (replace_generics (self_type (s_ident s) (s_generics s)) (s_generics s)))
      (Some (preds (replace_generics (self_type (s_ident s) (s_generics s)) (s_generics s)) ++
        [WTy [] (applied (s_ident s) (map as_arg (g_params (s_generics s)))) [BLt (struct_lt s)]]))).
  { unfold pdef, def_generics. cbn [cx_pgenerics cx_pwhere struct_cx cx_of insert_lifetime g_params].
    rewrite ordered_lts_first by (apply ordered_cons; exact Hr). f_equal. f_equal. f_equal. f_equal. f_equal.
    apply ty_applied_replace. exact H. }
  destruct k; cbn [kdef projected_params projected_preds]; try exact Hp.
  unfold odef, def_generics. cbn [struct_cx cx_of cx_generics make_where_clause g_params].
  rewrite ordered_lts_first by exact Hr. reflexivity.
Qed.
Lemma kdef_enum k a e : ordered (g_params (e_generics e)) ->
  kdef k (enum_cx a (spelled_enum e)) =
  mkGenerics (projected_params k (enum_lt e) (spelled (e_ident e) (e_generics e)))
    (Some (projected_preds k (enum_lt e) (e_ident e) (e_generics e) (spelled (e_ident e) (e_generics e)))).
Proof.
  intros H. exact (kdef_struct k a (mkStruct (e_attrs e) (e_vis e) (e_ident e) (e_generics e) FUnit) H).
Qed.

Lemma c10_struct s e a v n g fs' : parse_derive (ItStruct s) = Ok e -> options (s_attrs s) a ->
  ordered (g_params (s_generics s)) ->
  In (OStruct v n g fs') (all_items e) ->
  (n = helper_name (s_ident s) /\ ar_unpin a = UDefault) \/
  exists k lt, struct_has k a = true /\ n = proj_name k a (s_ident s) /\ pin_lifetime (s_generics s) lt /\
    g_params g = projected_params k lt (spelled (s_ident s) (s_generics s)) /\
    preds g = projected_preds k lt (s_ident s) (s_generics s) (spelled (s_ident s) (s_generics s)).
Proof.
  intros H Ho Hord Hin. destruct (struct_form _ _ _ H Ho) as [_ ->].
  apply struct_types_only in Hin. destruct Hin as [Hin|(k & Hk & E)]; [left; exact Hin|right].
  rewrite struct_kind_eq in E. injection E as -> -> -> ->.
  exists k, (struct_lt s). split; [exact Hk|]. split; [reflexivity|]. split; [apply struct_lt_ok|].
  rewrite kdef_struct by exact Hord. split; reflexivity.
Qed.
Lemma c10_enum e x a v n g vs' : parse_derive (ItEnum e) = Ok x -> options (e_attrs e) a ->
  ordered (g_params (e_generics e)) ->
  In (OEnum v n g vs') (all_items x) ->
  exists k lt, enum_has k a = true /\ n = proj_name k a (e_ident e) /\ pin_lifetime (e_generics e) lt /\
    g_params g = projected_params k lt (spelled (e_ident e) (e_generics e)) /\
    preds g = projected_preds k lt (e_ident e) (e_generics e) (spelled (e_ident e) (e_generics e)).
Proof.
  intros H Ho Hord Hin. destruct (enum_form _ _ _ H Ho) as [Ha ->].
  apply enum_types_only in Hin; [|apply (ae_replace_named _ _ Ha)]. destruct Hin as (k & Hk & E).
  rewrite enum_kind_eq in E. injection E as -> -> -> ->.
  exists k, (enum_lt e). split; [exact Hk|]. split; [reflexivity|]. split; [apply enum_lt_ok|].
  rewrite kdef_enum by exact Hord. split; reflexivity.
Qed.

(** The methods and the impl they are in. *)
Lemma struct_impls a cx fs : cx_args cx = a -> cx_kind cx = KStruct ->
  inherent_impls (all_items (struct_out cx fs)) =
  [mkImpl false (impl_generics (cx_generics cx)) None (ty_applied (cx_ident cx) (cx_generics cx))
     (map (fun k => match k with
                    | PMut => method_project cx (struct_body "get_unchecked_mut" (cx_mut_ident cx) fs)
                    | PRef => method_project_ref cx (struct_body "get_ref" (cx_ref_ident cx) fs)
                    | POwn => method_project_replace cx (struct_body_own (cx_own_ident cx) fs)
                    end) (filter (fun k => struct_has k a) all_proj))].
Proof.
  intros E K. unfold all_items, struct_out, make_proj_impl, make_unpin_impl, make_drop_impl. rewrite E, K.
  cases_options a; reflexivity.
Qed.
Lemma enum_impls a cx vs : cx_args cx = a -> cx_kind cx = KEnum -> ar_project_replace a <> PRUnnamed ->
  inherent_impls (all_items (enum_out cx vs)) =
  [mkImpl false (impl_generics (cx_generics cx)) None (ty_applied (cx_ident cx) (cx_generics cx))
     (map (fun k => match k with
                    | PMut => method_project cx (enum_body "get_unchecked_mut" (cx_mut_ident cx) vs)
                    | PRef => method_project_ref cx (enum_body "get_ref" (cx_ref_ident cx) vs)
                    | POwn => method_project_replace cx (enum_body_own (cx_own_ident cx) vs)
                    end) (filter (fun k => enum_has k a) all_proj))].
Proof.
  intros E K N. unfold all_items, enum_out, make_proj_impl, make_unpin_impl, make_drop_impl. rewrite E, K.
  cases_options a; try reflexivity; elim N; reflexivity.
Qed.

Lemma in_inherent_impls im l : In (OImpl im) l -> i_trait im = None -> In im (inherent_impls l).
Proof.
  intros H E. unfold inherent_impls. apply in_flat_map. exists (OImpl im). split; [exact H|]. cbn. rewrite E. left. reflexivity.
Qed.

Lemma method_sig k a s b : ordered (g_params (s_generics s)) ->
  projection_method k (struct_lt s) a (s_ident s) (s_generics s)
    (match k with
     | PMut => method_project (struct_cx a (spelled_struct s)) b
     | PRef => method_project_ref (struct_cx a (spelled_struct s)) b
     | POwn => method_project_replace (struct_cx a (spelled_struct s)) b
     end).
Proof.
  intros H. set (self := self_type (s_ident s) (s_generics s)).
  assert (Hr := ordered_replace self _ H).
  assert (Hm : forall j, ty_applied j (insert_lifetime (struct_lt s) (replace_generics self (s_generics s))) =
    applied j (ALt (struct_lt s) :: map as_arg (g_params (s_generics s)))).
  { intros j. rewrite ty_applied_ordered by (apply ordered_cons; exact Hr). unfold insert_lifetime. cbn [g_params map as_arg].
    do 2 f_equal. unfold replace_generics. cbn [g_params]. rewrite map_map. apply map_ext. intros []; reflexivity. }
  assert (Hn : forall j, ty_applied j (make_where_clause (replace_generics self (s_generics s))) =
    applied j (map as_arg (g_params (s_generics s)))).
  { intros j. change (ty_applied j (make_where_clause (replace_generics self (s_generics s))))
      with (ty_applied j (replace_generics self (s_generics s))). apply ty_applied_replace. exact H. }
  destruct k; constructor; try reflexivity.
  - cbn [m_ret method_project]. f_equal. etransitivity; [apply Hm|]. cases_options a; reflexivity.
  - cbn [m_ret method_project_ref]. f_equal. etransitivity; [apply Hm|]. cases_options a; reflexivity.
  - cbn [m_ret method_project_replace]. f_equal. etransitivity; [apply Hn|]. cases_options a; reflexivity.
Qed.

Lemma impl_header s a : ordered (g_params (s_generics s)) ->
  impl_generics (cx_generics (struct_cx a (spelled_struct s))) =
    mkGenerics (map without_default (g_params (spelled (s_ident s) (s_generics s))))
      (Some (preds (spelled (s_ident s) (s_generics s)))) /\
  ty_applied (cx_ident (struct_cx a (spelled_struct s))) (cx_generics (struct_cx a (spelled_struct s))) =
    applied (s_ident s) (map as_arg (g_params (s_generics s))).
Proof.
  intros H. unfold spelled. rewrite <- self_type_own. set (self := self_type (s_ident s) (s_generics s)).
  assert (Hr := ordered_replace self _ H). split.
  - unfold impl_generics, impl_params. cbn [struct_cx cx_of cx_generics make_where_clause g_params g_where].
    cbn [spelled_struct replace_struct s_generics]. fold self. f_equal.
    etransitivity; [apply f_equal; apply ordered_lts_first; exact Hr|]. apply map_ext. intros []; reflexivity.
  - exact (ty_applied_replace (s_ident s) self (s_generics s) H).
Qed.

Lemma Forall2_map_r {A B} (R : A -> B -> Prop) (f : A -> B) l : (forall x, R x (f x)) -> Forall2 R l (map f l).
Proof. intros H. induction l; cbn; constructor; auto. Qed.

Lemma c10_impl_struct s e a : parse_derive (ItStruct s) = Ok e -> options (s_attrs s) a ->
  ordered (g_params (s_generics s)) ->
  exists im lt, inherent_impls (all_items e) = [im] /\ pin_lifetime (s_generics s) lt /\
    projection_impl (filter (fun k => struct_has k a) all_proj) lt a (s_ident s) (s_generics s) im.
Proof.
  intros H Ho Hord. destruct (struct_form _ _ _ H Ho) as [_ ->].
  do 2 eexists. split; [apply (struct_impls a); reflexivity|]. split; [apply struct_lt_ok|].
  destruct (impl_header s a Hord) as [E1 E2]. constructor; cbn [i_unsafe i_self i_generics i_methods].
  - reflexivity.
  - exact E2.
  - rewrite E1. reflexivity.
  - rewrite E1. reflexivity.
  - apply Forall2_map_r. intros k.
    destruct k; [apply (method_sig PMut)|apply (method_sig PRef)|apply (method_sig POwn)]; exact Hord.
Qed.
Lemma c10_impl_enum e x a : parse_derive (ItEnum e) = Ok x -> options (e_attrs e) a ->
  ordered (g_params (e_generics e)) ->
  exists im lt, inherent_impls (all_items x) = [im] /\ pin_lifetime (e_generics e) lt /\
    projection_impl (filter (fun k => enum_has k a) all_proj) lt a (e_ident e) (e_generics e) im.
Proof.
  intros H Ho Hord. destruct (enum_form _ _ _ H Ho) as [Ha ->].
  set (s := mkStruct (e_attrs e) (e_vis e) (e_ident e) (e_generics e) FUnit).
  do 2 eexists. split; [apply (enum_impls a); [reflexivity|reflexivity|apply (ae_replace_named _ _ Ha)]|].
  split; [apply enum_lt_ok|].
  destruct (impl_header s a Hord) as [E1 E2]. constructor; cbn [i_unsafe i_self i_generics i_methods].
  - reflexivity.
  - exact E2.
  - change (cx_generics (enum_cx a (spelled_enum e))) with (cx_generics (struct_cx a (spelled_struct s))). rewrite E1. reflexivity.
  - change (cx_generics (enum_cx a (spelled_enum e))) with (cx_generics (struct_cx a (spelled_struct s))). rewrite E1. reflexivity.
  - apply Forall2_map_r. intros k.
    destruct k; [apply (method_sig PMut a s)|apply (method_sig PRef a s)|apply (method_sig POwn a s)]; exact Hord.
Qed.

(** ** C12 *)
Lemma c12_struct s e a : parse_derive (ItStruct s) = Ok e -> options (s_attrs s) a ->
  flat_map introduces (exposed e) = flat_map (fun k => opt_given k a) all_proj /\
  flat_map introduces (scoped e) =
    [I "_pin_project"] ++ flat_map (fun k => struct_hidden k a (s_ident s)) all_proj ++
    [I "__assert_not_repr_packed"] ++
    (if is_default a then [helper_name (s_ident s)] else []) ++
    (if ar_pinned_drop a then [] else [drop_guard_name (s_ident s)]).
Proof.
  intros H Ho. destruct (struct_form _ _ _ H Ho) as [_ ->].
  cases_options a; split; reflexivity.
Qed.
Lemma c12_enum e x a : parse_derive (ItEnum e) = Ok x -> options (e_attrs e) a ->
  flat_map introduces (exposed x) = flat_map (fun k => opt_given k a) all_proj /\
  flat_map introduces (scoped x) =
    [I "_pin_project"] ++
    (if is_default a then [helper_name (e_ident e)] else []) ++
    (if ar_pinned_drop a then [] else [drop_guard_name (e_ident e)]).
Proof.
  intros H Ho. destruct (enum_form _ _ _ H Ho) as [Ha ->].
  pose proof (ae_replace_named _ _ Ha) as N.
  cases_options a; try (elim N; reflexivity); split; reflexivity.
Qed.
(** Nothing but types is generated next to the item. *)
Lemma c12_exposed it e x : parse_derive it = Ok e -> In x (exposed e) ->
  (exists v n g fs, x = OStruct v n g fs) \/ (exists v n g vs, x = OEnum v n g vs).
Proof.
  intros H Hin. destruct it as [s|en|]; [| |discriminate].
  - apply parse_derive_struct in H. destruct H as (a & _ & ->). left.
    cases_options a; cbn in Hin; intuition (subst; do 4 eexists; reflexivity).
  - apply parse_derive_enum in H. destruct H as (a & _ & ->). right.
    cases_options a; cbn in Hin; intuition (subst; do 4 eexists; reflexivity).
Qed.

(** ** C03 on expansions *)
Lemma options_exclusive l a : options l a -> ar_pinned_drop a = true -> ar_project_replace a = PRNone.
Proof.
  intros (ts & pl & _ & Hw & Hs & Ho) H. eapply (args_parse_exclusive ts a); [|exact H].
  apply args_parse_iff. eauto.
Qed.
Lemma not_implements_struct tr v i g fs : ~ implements tr (OStruct v i g fs).
Proof. intros (im & H & _). discriminate. Qed.

Lemma derive_form it e : parse_derive it = Ok e ->
  (exists s a, it = ItStruct s /\ accepts_struct s a /\ options (s_attrs s) a /\
     e = struct_out (struct_cx a (spelled_struct s)) (s_fields (spelled_struct s))) \/
  (exists en a, it = ItEnum en /\ accepts_enum en a /\ options (e_attrs en) a /\
     e = enum_out (enum_cx a (spelled_enum en)) (e_variants (spelled_enum en))).
Proof.
  intros H. destruct it as [s|en|]; [left|right|discriminate].
  - apply parse_derive_struct in H. destruct H as (a & Ha & ->). exists s, a. split; [reflexivity|].
    split; [exact Ha|]. split; [apply (as_options _ _ Ha)|reflexivity].
  - apply parse_derive_enum in H. destruct H as (a & Ha & ->). exists en, a. split; [reflexivity|].
    split; [exact Ha|]. split; [apply (ae_options _ _ Ha)|reflexivity].
Qed.

Lemma c03_expansion it e : parse_derive it = Ok e ->
  ~ (In (I "project_replace") (map m_name (inherent_methods e)) /\
     exists x, In x (all_items e) /\ implements (support ["__private"; "Drop"]) x).
Proof.
  intros H [H1 (x & Hx & im & -> & Hi)]. apply derive_form in H.
  destruct H as [(s & a & -> & Ha & Ho & ->)|(s & a & -> & Ha & Ho & ->)].
  - pose proof (options_exclusive _ _ Ho) as He. revert H1 Hx He. unfold all_items.
    cases_options a; cbn [ar_pinned_drop ar_project_replace]; intros H1 Hx He;
      try (discriminate (He eq_refl)); cbn in H1; 
      repeat (destruct H1 as [H1|H1]; [discriminate H1|]); try destruct H1;
      cbn in Hx; repeat (destruct Hx as [Hx|Hx]; [try discriminate Hx; injection Hx as <-; discriminate Hi|]); destruct Hx.
  - pose proof (options_exclusive _ _ Ho) as He. revert H1 Hx He. unfold all_items.
    cases_options a; cbn [ar_pinned_drop ar_project_replace]; intros H1 Hx He;
      try (discriminate (He eq_refl)); cbn in H1; 
      repeat (destruct H1 as [H1|H1]; [discriminate H1|]); try destruct H1;
      cbn in Hx; repeat (destruct Hx as [Hx|Hx]; [try discriminate Hx; injection Hx as <-; discriminate Hi|]); destruct Hx.
Qed.


Lemma c03_traits_struct s e a : parse_derive (ItStruct s) = Ok e -> options (s_attrs s) a ->
  ordered (g_params (s_generics s)) ->
  trait_impls e = traits_of a (s_ident s) (applied (s_ident s) (map as_arg (g_params (s_generics s)))).
Proof.
  intros H Ho Hord. destruct (struct_form _ _ _ H Ho) as [_ ->].
  destruct (impl_header s a Hord) as [_ E]. rewrite <- E.
  cases_options a; reflexivity.
Qed.
Lemma c03_traits_enum e x a : parse_derive (ItEnum e) = Ok x -> options (e_attrs e) a ->
  ordered (g_params (e_generics e)) ->
  trait_impls x = traits_of a (e_ident e) (applied (e_ident e) (map as_arg (g_params (e_generics e)))).
Proof.
  intros H Ho Hord. destruct (enum_form _ _ _ H Ho) as [_ ->].
  destruct (impl_header (mkStruct (e_attrs e) (e_vis e) (e_ident e) (e_generics e) FUnit) a Hord) as [_ E].
  cbn [s_ident s_generics] in E. rewrite <- E.
  cases_options a; reflexivity.
Qed.
