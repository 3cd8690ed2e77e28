(** The items inside [const _] that concern traits, in closed form. *)
From Coq Require Import String Ascii List Bool Lia.
From Verif Require Import Base Syntax ModelArgs ModelUtils ModelDerive ModelMeaning ModelTraits
  SpecArgs SpecDerive SpecLifetime SpecExpand SpecRun SpecMeaning SpecTraits
  ProofsArgs ProofsUtils ProofsDerive ProofsExpand ProofsTypes.
Import ListNotations.
Open Scope string_scope.
Open Scope list_scope.

(** The types of the pinned fields, with [Self] spelled out. *)
Definition pinned_types (it : item) : list ty :=
  flat_map (fun fs => map (fun f => replace_ty (own_type (name_of it) (generics_of it)) (f_ty f))
                        (filter pin_b (fields_list fs))) (fields_of it).

Definition pin_generics (gs : generics) (pin : string) (w : wpred) : generics :=
  mkGenerics (PLt pin [] :: map without_default (g_params gs)) (Some (preds gs ++ [w])).
Definition plain_generics (gs : generics) : generics :=
  mkGenerics (map without_default (g_params gs)) (Some (preds gs)).
Definition helper_ty (i : ident) (g : generics) (pin : string) : ty :=
  applied (helper_name i) (ALt pin :: map as_arg (g_params g)).
Definition helper_fs (g : generics) (pin : string) (tys : list ty) : list field :=
  mkField [] VInherited (Some (I "__pin_project_use_generics"))
    (pp_priv_ty "AlwaysUnpin" (GAngle false [ALt pin; ATy (phantom_tuple (type_params g))]))
  :: map (fun nt => mkField [] VInherited (Some (id_field (fst nt))) (snd nt)) (enumerate tys)
  ++ map (fun nl => mkField [] VInherited (Some (id_lifetime (fst nl))) (TyRef (Some (snd nl)) false (TyTuple [])))
       (enumerate (lifetimes g)).

Definition unsafe_pred (pin : string) : wpred :=
  WTy [] (pinned_fields_of (ty_wrapper pin ty_self)) [trait_bound tr_unsafe_unpin].
Definition never_pred (pin : string) : wpred :=
  WTy [] (pinned_fields_of (ty_wrapper pin (pp_priv_ty "PhantomPinned" GNone))) [trait_bound tr_unpin].
Definition default_pred (i : ident) (g : generics) (pin : string) : wpred :=
  WTy [] (pinned_fields_of (helper_ty i g pin)) [trait_bound tr_unpin].

Definition unpin_items (a : args) (v : vis) (i : ident) (g : generics) (pin : string) (tys : list ty) : list oitem :=
  let gs := spelled i g in
  let self := applied i (map as_arg (g_params g)) in
  match ar_unpin a with
  | UUnsafe => [empty_impl false (pin_generics gs pin (unsafe_pred pin)) tr_unpin self]
  | UNegative =>
    [empty_impl false (pin_generics gs pin (never_pred pin)) tr_unpin self;
     empty_impl true (pin_generics gs pin (never_pred pin)) tr_unsafe_unpin self]
  | UDefault =>
    [OStruct v (helper_name i) (mkGenerics (PLt pin [] :: g_params gs) (Some (preds gs))) (FNamed (helper_fs g pin tys));
     empty_impl false (pin_generics gs pin (default_pred i g pin)) tr_unpin self;
     empty_impl true (pin_generics gs pin (default_pred i g pin)) tr_unsafe_unpin self]
  end.

Definition drop_method : method := mkMethod VInherited false (I "drop") [] RecvRefMut [] None drop_body.
Definition dummy_method : method := mkMethod VInherited true (I "drop") [] (recv_pin None true) [] None (BTail [] None).
Definition guard_path (i : ident) : path := Path false [Seg (drop_guard_name i) GNone].
Definition blanket (i : ident) : impl :=
  mkImpl false (mkGenerics [PTy (I "T") [trait_bound tr_drop] None] None) (Some (guard_path i)) (ty_ident (I "T")) [].
Definition drop_items (a : args) (i : ident) (g : generics) : list oitem :=
  let gs := spelled i g in
  let self := applied i (map as_arg (g_params g)) in
  if ar_pinned_drop a then
    [OImpl (mkImpl false (plain_generics gs) (Some tr_drop) self [drop_method])]
  else
    [OTrait (drop_guard_name i); OImpl (blanket i);
     OImpl (mkImpl false (plain_generics gs) (Some (guard_path i)) self []);
     OImpl (mkImpl false (plain_generics gs) (Some tr_pinned_drop) self [dummy_method])].

Record front_ok (i : ident) (front : list oitem) : Prop := {
  fo_impl : forall im, In (OImpl im) front -> i_trait im = None;
  fo_struct : forall v n g fs, In (OStruct v n g fs) front -> name n <> name (helper_name i);
  fo_extern : forall x y, ~ In (OExternCrate x y) front
}.

Section Form.
  Variables (i : ident) (g : generics).
  Hypothesis Hord : ordered (g_params g).
  Notation self := (self_type i g).
  Notation gs := (spelled i g).

  Lemma spelled_eq : gs = replace_generics self g.
  Proof. unfold spelled. rewrite <- self_type_own. reflexivity. Qed.
  Lemma lts_first_pin pin : lts_first (PLt pin [] :: g_params gs) = PLt pin [] :: g_params gs.
  Proof. apply ordered_lts_first, ordered_cons. rewrite spelled_eq. apply ordered_replace. exact Hord. Qed.
  Lemma lts_first_gs : lts_first (g_params gs) = g_params gs.
  Proof. apply ordered_lts_first. rewrite spelled_eq. apply ordered_replace. exact Hord. Qed.

  Lemma f_pin_generics pin w :
    impl_generics (push_where (insert_lifetime pin gs) w) = pin_generics gs pin w.
  Proof.
    unfold impl_generics, impl_params, push_where, insert_lifetime, pin_generics. cbn [g_params g_where].
    rewrite lts_first_pin. reflexivity.
  Qed.
  Lemma f_pin_generics' pin w :
    mkGenerics (impl_params (insert_lifetime pin gs)) (Some (where_of (make_where_clause gs) ++ [w])) =
    pin_generics gs pin w.
  Proof.
    unfold impl_params, insert_lifetime, pin_generics, make_where_clause. cbn [g_params g_where where_of].
    rewrite lts_first_pin. reflexivity.
  Qed.
  Lemma f_plain : impl_generics (make_where_clause gs) = plain_generics gs.
  Proof.
    unfold impl_generics, impl_params, plain_generics, make_where_clause. cbn [g_params g_where].
    rewrite lts_first_gs. reflexivity.
  Qed.
  Lemma f_self j : ty_applied j (make_where_clause gs) = applied j (map as_arg (g_params g)).
  Proof.
    change (ty_applied j (make_where_clause gs)) with (ty_applied j gs). rewrite spelled_eq. apply ty_applied_replace. exact Hord.
  Qed.
  Lemma f_helper pin j : ty_applied j (insert_lifetime pin gs) = applied j (ALt pin :: map as_arg (g_params g)).
  Proof.
    rewrite ty_applied_ordered.
    - cbn [insert_lifetime g_params map as_arg]. do 2 f_equal. rewrite spelled_eq. cbn [replace_generics g_params].
      rewrite map_map. apply map_ext. intros []; reflexivity.
    - cbn [insert_lifetime g_params]. apply ordered_cons. rewrite spelled_eq. apply ordered_replace. exact Hord.
  Qed.
  Lemma f_def pin : def_generics (insert_lifetime pin gs) (where_of (make_where_clause gs)) =
    mkGenerics (PLt pin [] :: g_params gs) (Some (preds gs)).
  Proof. unfold def_generics. cbn [insert_lifetime g_params make_where_clause where_of g_where]. rewrite lts_first_pin. reflexivity. Qed.
  Lemma f_type_params : type_params (make_where_clause gs) = type_params g.
  Proof.
    rewrite spelled_eq. unfold type_params. cbn [make_where_clause replace_generics g_params].
    clear Hord. generalize (self_type i g); intros r. induction (g_params g) as [|[] l IH]; cbn in *; rewrite ?IH; reflexivity.
  Qed.
  Lemma f_lifetimes : lifetimes (make_where_clause gs) = lifetimes g.
  Proof.
    rewrite spelled_eq. unfold lifetimes. cbn [make_where_clause replace_generics g_params].
    clear Hord. generalize (self_type i g); intros r. induction (g_params g) as [|[] l IH]; cbn in *; rewrite ?IH; reflexivity.
  Qed.

  Lemma unpin_form a attrs v k tys :
    let cx := cx_of a attrs v i (replace_generics self g) k in
    make_unpin_impl cx tys = unpin_items a v i g (cx_lifetime cx) tys.
  Proof.
    cbn zeta. rewrite <- spelled_eq. unfold make_unpin_impl, unpin_items.
    cbn [cx_of cx_args cx_lifetime cx_generics cx_pgenerics cx_ident cx_vis].
    destruct (ar_unpin a); rewrite ?f_pin_generics, ?f_pin_generics', ?f_self, ?f_def.
    - unfold helper_fields. cbn [cx_of cx_lifetime cx_generics]. rewrite f_type_params, f_lifetimes, f_helper. reflexivity.
    - reflexivity.
    - reflexivity.
  Qed.
  Lemma drop_form a attrs v k :
    make_drop_impl (cx_of a attrs v i (replace_generics self g) k) = drop_items a i g.
  Proof.
    rewrite <- spelled_eq. unfold make_drop_impl, drop_items. cbn [cx_of cx_args cx_generics cx_ident].
    rewrite f_plain, f_self. reflexivity.
  Qed.
End Form.

Lemma pinned_tys_replace i g l :
  map f_ty (filter pin_b (map (replace_field (self_type i g)) l)) =
  map (fun f => replace_ty (own_type i g) (f_ty f)) (filter pin_b l).
Proof.
  pose proof (self_type_own i g) as E. revert E. generalize (own_type i g). intros o <-.
  induction l as [|f l IH]; [reflexivity|]. cbn [map filter]. rewrite pin_b_replace.
  destruct (pin_b f); [|exact IH]. cbn [map replace_field f_ty]. f_equal. exact IH.
Qed.

Lemma append_longer s t : t <> "" -> (s ++ t)%string <> s.
Proof.
  intros Ht. induction s as [|c s IH]; cbn; [exact Ht|]. intros E. injection E as E. contradiction.
Qed.

Lemma scoped_form_vis it e a : parse_derive it = Ok e -> options (attrs_of it) a -> ordered (g_params (generics_of it)) ->
  exists pin front, pin_lifetime (generics_of it) pin /\ front_ok (name_of it) front /\
    scoped e = OExternCrate (I "pin_project") (I "_pin_project") :: front ++
      unpin_items a (replace_vis (vis_of it)) (name_of it) (generics_of it) pin (pinned_types it) ++
      drop_items a (name_of it) (generics_of it).
Proof.
  intros H Ho Hord. destruct it as [s|en|]; [| |discriminate]; cbn [attrs_of name_of generics_of vis_of] in *.
  - destruct (struct_form _ _ _ H Ho) as [_ ->].
    exists (struct_lt s).
    set (cx := struct_cx a (spelled_struct s)).
    exists (when (negb (is_some (ar_project a))) [struct_mut cx (s_fields (spelled_struct s))] ++
            when (negb (is_some (ar_project_ref a))) [struct_ref cx (s_fields (spelled_struct s))] ++
            when (pr_span (ar_project_replace a) && negb (is_some (pr_ident (ar_project_replace a))))
              [struct_own cx (s_fields (spelled_struct s))] ++
            [make_proj_impl cx (struct_body "get_unchecked_mut" (cx_mut_ident cx) (s_fields (spelled_struct s)))
               (struct_body "get_ref" (cx_ref_ident cx) (s_fields (spelled_struct s)))
               (struct_body_own (cx_own_ident cx) (s_fields (spelled_struct s)));
             assert_item cx (s_fields (spelled_struct s))]).
    split; [apply struct_lt_ok|]. split.
    + constructor.
      * intros im Hin. rewrite !in_app_iff in Hin. subst cx. revert Hin.
        cases_options a; cbn; intuition (try discriminate);
          match goal with X : _ = OImpl im |- _ => injection X as <-; reflexivity end.
      * intros v n g fs Hin. subst cx. revert Hin.
        cases_options a; cbn; intuition (try discriminate);
          match goal with X : _ = OStruct _ _ _ _ |- _ => injection X as <- <- <- <- end;
          match goal with X : _ = _ |- _ => cbn in X; injection X; apply append_longer; discriminate end.
      * intros x y Hin. subst cx. revert Hin. cases_options a; cbn; intuition discriminate.
    + unfold struct_out. cbn [scoped].
      rewrite <- !app_assoc. f_equal.
      rewrite <- (unpin_form (s_ident s) (s_generics s) Hord a (s_attrs (spelled_struct s)) (replace_vis (s_vis s)) KStruct).
      rewrite <- (drop_form (s_ident s) (s_generics s) Hord a (s_attrs (spelled_struct s)) (replace_vis (s_vis s)) KStruct).
      do 6 f_equal. unfold pinned_types. cbn [fields_of flat_map name_of generics_of]. rewrite app_nil_r.
      cbn [spelled_struct replace_struct s_fields]. rewrite fields_list_replace. apply pinned_tys_replace.
  - destruct (enum_form _ _ _ H Ho) as [Ha ->].
    exists (enum_lt en).
    set (cx := enum_cx a (spelled_enum en)).
    exists [make_proj_impl cx (enum_body "get_unchecked_mut" (cx_mut_ident cx) (e_variants (spelled_enum en)))
              (enum_body "get_ref" (cx_ref_ident cx) (e_variants (spelled_enum en)))
              (enum_body_own (cx_own_ident cx) (e_variants (spelled_enum en)))].
    split; [apply enum_lt_ok|]. split.
    + constructor.
      * intros im [X|[]]. injection X as <-. reflexivity.
      * intros v n g fs [X|[]]. discriminate.
      * intros x y [X|[]]. discriminate.
    + unfold enum_out. cbn [scoped].
      f_equal. f_equal.
      rewrite <- (unpin_form (e_ident en) (e_generics en) Hord a (e_attrs (spelled_enum en)) (replace_vis (e_vis en)) KEnum).
      rewrite <- (drop_form (e_ident en) (e_generics en) Hord a (e_attrs (spelled_enum en)) (replace_vis (e_vis en)) KEnum).
      cbn [app]. do 2 f_equal. unfold pinned_types. cbn [fields_of name_of generics_of].
      cbn [spelled_enum replace_enum e_variants]. rewrite !flat_map_concat_map, !map_map. f_equal. apply map_ext. intros v.
      cbn [replace_variant v_fields]. unfold pinned_tys. rewrite fields_list_replace. apply pinned_tys_replace.
Qed.
Lemma scoped_form it e a : parse_derive it = Ok e -> options (attrs_of it) a -> ordered (g_params (generics_of it)) ->
  exists pin v front, pin_lifetime (generics_of it) pin /\ front_ok (name_of it) front /\
    scoped e = OExternCrate (I "pin_project") (I "_pin_project") :: front ++
      unpin_items a v (name_of it) (generics_of it) pin (pinned_types it) ++
      drop_items a (name_of it) (generics_of it).
Proof.
  intros H Ho Hord. destruct (scoped_form_vis _ _ _ H Ho Hord) as (pin & front & X). exists pin. eexists. exists front. exact X.
Qed.
