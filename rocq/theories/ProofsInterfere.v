(** Options do not influence each other. *)
From Coq Require Import String Ascii List Bool.
From Verif Require Import Base Syntax ModelArgs ModelUtils ModelDerive.
From Verif Require Import SpecArgs SpecDerive SpecExpand SpecRun SpecInterfere.
From Verif Require Import ProofsArgs ProofsUtils ProofsDerive ProofsExpand ProofsTypes ProofsRunProj ProofsTraitsForm.
Import ListNotations.
Open Scope string_scope.
Open Scope list_scope.

Lemma nodup_flat {A B} (f : A -> list B) l x y n : NoDup (flat_map f l) -> In x l -> In y l -> x <> y -> In n (f x) -> In n (f y) -> False.
Proof.
  induction l as [|z l IH]; cbn [flat_map]; [intros _ []|]. intros N [Hx|Hx] Hy Hxy Nx Ny.
  - subst z. destruct Hy as [Hy|Hy]; [contradiction|].
    assert (In n (flat_map f l)) by (apply in_flat_map; eauto).
    clear - N Nx H. induction (f x) as [|b r IH]; [destruct Nx|]. cbn [app] in N. inversion N; subst.
    destruct Nx as [->|Nx]; [|auto]. apply H2. apply in_or_app. auto.
  - destruct Hy as [Hy|Hy].
    + subst z. assert (In n (flat_map f l)) by (apply in_flat_map; eauto).
      clear - N Ny H. induction (f y) as [|b r IH]; [destruct Ny|]. cbn [app] in N. inversion N; subst.
      destruct Ny as [->|Ny]; [|auto]. apply H2. apply in_or_app. auto.
    + apply IH; auto. clear - N. induction (f z) as [|b r IH]; [exact N|]. cbn [app] in N. inversion N; subst. auto.
Qed.
Lemma given_distinct l a k k' n : options l a -> given_name k a = Some n -> given_name k' a = Some n -> k = k'.
Proof.
  intros (ts & pl & _ & _ & Hs & Ho).
  set (arg := fun k => match k with PMut => GProject n | PRef => GProjectRef n | POwn => GReplaceNamed n end).
  assert (X : forall k, given_name k a = Some n -> In (arg k) pl).
  { intros j H. destruct j; cbn [given_name arg] in *.
    - apply (o_project _ _ Ho). exact H.
    - apply (o_project_ref _ _ Ho). exact H.
    - destruct (ar_project_replace a) eqn:E; try discriminate. injection H as ->. apply (o_replace_named _ _ Ho). exact E. }
  intros H1 H2.
  assert (Y : forall j, In n (given (arg j))) by (intros j; destruct j; left; reflexivity).
  assert (D : arg k = arg k' -> k = k') by (destruct k, k'; cbn [arg]; intros Q; try discriminate Q; reflexivity).
  destruct k, k'; try reflexivity;
    (exfalso; refine (nodup_flat given pl _ _ n (names_distinct _ Hs) (X _ H1) (X _ H2) _ (Y _) (Y _)); discriminate).
Qed.

(** ** Methods *)
Definition kmeth (k : proj) (n : ident) (cx : context) (bn : ident -> body) : method :=
  match k with
  | PMut => mkMethod (cx_pvis cx) false (I "project") [cx_lifetime cx] (recv_pin (Some (cx_lifetime cx)) true) []
              (Some (ty_applied n (cx_pgenerics cx))) (bn n)
  | PRef => mkMethod (cx_pvis cx) false (I "project_ref") [cx_lifetime cx] (recv_pin (Some (cx_lifetime cx)) false) []
              (Some (ty_applied n (cx_pgenerics cx))) (bn n)
  | POwn => mkMethod (cx_pvis cx) false (I "project_replace") [] (recv_pin None true) [(I "__replacement", ty_self)]
              (Some (ty_applied n (cx_generics cx))) (add_prologue replace_prologue (bn n))
  end.
Definition sbody (k : proj) (fs : fields) (n : ident) : body :=
  match k with PMut => struct_body "get_unchecked_mut" n fs | PRef => struct_body "get_ref" n fs | POwn => struct_body_own n fs end.
Definition ebody (k : proj) (vs : list variant) (n : ident) : body :=
  match k with PMut => enum_body "get_unchecked_mut" n vs | PRef => enum_body "get_ref" n vs | POwn => enum_body_own n vs end.
Definition base : args := mkArgs false UDefault None None PRNone.

Lemma struct_methods_are a s fs : inherent_methods (struct_out (struct_cx a s) fs) =
  map (fun k => kmeth k (proj_name k a (s_ident s)) (struct_cx base s) (sbody k fs)) (filter (fun k => struct_has k a) all_proj).
Proof. cases_options a; reflexivity. Qed.
Lemma enum_methods_are a e vs : ar_project_replace a <> PRUnnamed -> inherent_methods (enum_out (enum_cx a e) vs) =
  map (fun k => kmeth k (proj_name k a (e_ident e)) (enum_cx base e) (ebody k vs)) (filter (fun k => enum_has k a) all_proj).
Proof. intros H. cases_options a; try (elim H; reflexivity); reflexivity. Qed.
Lemma kmeth_name k n cx b : m_name (kmeth k n cx b) = proj_method k.
Proof. destruct k; reflexivity. Qed.
Lemma proj_method_inj k k' : proj_method k = proj_method k' -> k = k'.
Proof. destruct k, k'; intros H; try reflexivity; discriminate H. Qed.
Lemma in_kinds (f : proj -> method) (h : proj -> bool) k m : (forall j, m_name (f j) = proj_method j) -> m_name m = proj_method k ->
  (In m (map f (filter h all_proj)) <-> m = f k /\ h k = true).
Proof.
  intros Hf Hm. rewrite in_map_iff. split.
  - intros (j & <- & Hj). rewrite Hf in Hm. apply proj_method_inj in Hm. subst j. apply filter_In in Hj. destruct Hj. auto.
  - intros [-> Hk]. exists k. split; [reflexivity|]. apply filter_In. split; [destruct k; cbn; auto|exact Hk].
Qed.

Lemma c64_method it it' e e' a a' k m :
  same_item it it' -> parse_derive it = Ok e -> parse_derive it' = Ok e' -> options (attrs_of it) a -> options (attrs_of it') a' ->
  has_proj k it a = true -> has_proj k it' a' = true -> given_name k a = given_name k a' ->
  m_name m = proj_method k -> (In m (inherent_methods e) <-> In m (inherent_methods e')).
Proof.
  intros HS. destruct HS as [l l' v i g fs|l l' v i g vs]; cbn [attrs_of s_attrs e_attrs has_proj]; intros H H' Ho Ho' Hh Hh' Hn Hm;
    assert (Ep : proj_name k a i = proj_name k a' i) by (unfold proj_name; rewrite Hn; reflexivity).
  - destruct (struct_form _ _ _ H Ho) as [_ ->], (struct_form _ _ _ H' Ho') as [_ ->]. rewrite !struct_methods_are.
    rewrite (in_kinds _ _ k m) by (auto; intros j; apply kmeth_name).
    rewrite (in_kinds _ _ k m) by (auto; intros j; apply kmeth_name). rewrite Hh, Hh'.
    cbn [spelled_struct replace_struct s_ident s_generics s_fields]. rewrite Ep. reflexivity.
  - destruct (enum_form _ _ _ H Ho) as [Ha ->], (enum_form _ _ _ H' Ho') as [Ha' ->].
    rewrite !enum_methods_are by (eapply ae_replace_named; eassumption).
    rewrite (in_kinds _ _ k m) by (auto; intros j; apply kmeth_name).
    rewrite (in_kinds _ _ k m) by (auto; intros j; apply kmeth_name). rewrite Hh, Hh'.
    cbn [spelled_enum replace_enum e_ident e_generics e_variants]. rewrite Ep. reflexivity.
Qed.

(** ** Types *)
Ltac split_in H :=
  repeat match type of H with
  | _ \/ _ => destruct H as [H|H]
  | False => destruct H
  end.
Lemma struct_home a s o n : defines o n ->
  (In o (exposed (struct_out (struct_cx a s) (s_fields s))) ->
     exists k, struct_has k a = true /\ given_name k a = Some n /\ o = struct_kind k (struct_cx a s) (s_fields s)) /\
  (In o (scoped (struct_out (struct_cx a s) (s_fields s))) ->
     n = id_unpin (s_ident s) \/
     exists k, struct_has k a = true /\ given_name k a = None /\ n = proj_name k a (s_ident s) /\ o = struct_kind k (struct_cx a s) (s_fields s)).
Proof.
  intros Hd. unfold struct_out, make_unpin_impl, make_drop_impl. change (cx_args (struct_cx a s)) with a.
  cases_options a; cbn [given_name ar_project ar_project_ref ar_project_replace ar_unpin ar_pinned_drop
    is_some exposed scoped when app negb pr_span pr_ident andb In]; split; intros H; split_in H; subst o;
  cbn [defines empty_impl make_proj_impl assert_item struct_mut struct_ref struct_own] in Hd; try contradiction; subst n;
  first [ left; reflexivity
        | exists PMut; repeat split; reflexivity | exists PRef; repeat split; reflexivity | exists POwn; repeat split; reflexivity
        | right; exists PMut; repeat split; reflexivity | right; exists PRef; repeat split; reflexivity
        | right; exists POwn; repeat split; reflexivity ].
Qed.
Lemma enum_home a e o n : ar_project_replace a <> PRUnnamed -> defines o n ->
  In o (exposed (enum_out (enum_cx a e) (e_variants e))) ->
  exists k, enum_has k a = true /\ given_name k a = Some n /\ o = enum_kind k (enum_cx a e) (e_variants e).
Proof.
  intros N Hd. unfold enum_out. change (cx_args (enum_cx a e)) with a.
  cases_options a; cbn [given_name ar_project ar_project_ref ar_project_replace ar_unpin ar_pinned_drop
    is_some exposed scoped when app negb pr_span pr_ident andb In]; intros H; split_in H; subst o;
  cbn [defines enum_mut enum_ref enum_own] in Hd; subst n;
  first [ exists PMut; repeat split; reflexivity | exists PRef; repeat split; reflexivity | exists POwn; repeat split; reflexivity
        | elim N; reflexivity ].
Qed.
Lemma append_cancel_l s t u : (s ++ t)%string = (s ++ u)%string -> t = u.
Proof. induction s as [|c s IH]; cbn; [auto|]. intros H. injection H as H. auto. Qed.
Lemma hidden_distinct k k' a i : given_name k a = None -> given_name k' a = None -> proj_name k a i = proj_name k' a i -> k = k'.
Proof.
  unfold proj_name. intros -> ->. intros H.
  assert (X : forall s t, I ("__" ++ name i ++ s) = I ("__" ++ name i ++ t) -> s = t).
  { intros s t E. cbn in E. injection E as E. exact (append_cancel_l _ _ _ E). }
  destruct k, k'; try reflexivity; apply X in H; discriminate H.
Qed.
Lemma hidden_not_helper k a i : given_name k a = None -> proj_name k a i <> id_unpin i.
Proof.
  unfold proj_name. intros ->. intros H. cbn in H. injection H as H. revert H. apply append_longer. destruct k; discriminate.
Qed.
Lemma struct_type_iff a s k o l : options l a -> struct_has k a = true -> defines o (proj_name k a (s_ident s)) ->
  (In o (home k a (struct_out (struct_cx a s) (s_fields s))) <-> o = struct_kind k (struct_cx a s) (s_fields s)).
Proof.
  intros Ho Hh Hd. pose proof (struct_kind_in k a (struct_cx a s) (s_fields s) eq_refl Hh) as Hin.
  destruct (struct_home a s o _ Hd) as [X Y]. unfold home. destruct (given_name k a) as [n|] eqn:En; cbn [is_some] in Hin.
  - split; [|intros ->; exact Hin]. intros H. destruct (X H) as (k' & _ & H2 & H3).
    unfold proj_name in H2. rewrite En in H2. rewrite (given_distinct l a k k' n Ho En H2). exact H3.
  - split; [|intros ->; exact Hin]. intros H. destruct (Y H) as [H1|(k' & _ & H2 & H3 & H4)].
    + elim (hidden_not_helper k a (s_ident s) En H1).
    + rewrite (hidden_distinct k k' a _ En H2 H3). exact H4.
Qed.
Lemma enum_type_iff a e k o l : options l a -> ar_project_replace a <> PRUnnamed -> enum_has k a = true ->
  defines o (proj_name k a (e_ident e)) ->
  (In o (home k a (enum_out (enum_cx a e) (e_variants e))) <-> o = enum_kind k (enum_cx a e) (e_variants e)).
Proof.
  intros Ho N Hh Hd. pose proof (enum_kind_in k a (enum_cx a e) (e_variants e) eq_refl Hh) as Hin.
  unfold home. unfold enum_has in Hh. destruct (given_name k a) as [n|] eqn:En; [|discriminate].
  split; [|intros ->; exact Hin]. intros H. destruct (enum_home a e o _ N Hd H) as (k' & _ & H2 & H3).
  unfold proj_name in H2. rewrite En in H2. rewrite (given_distinct l a k k' n Ho En H2). exact H3.
Qed.
Lemma c64_type it it' e e' a a' k :
  same_item it it' -> parse_derive it = Ok e -> parse_derive it' = Ok e' -> options (attrs_of it) a -> options (attrs_of it') a' ->
  has_proj k it a = true -> has_proj k it' a' = true -> given_name k a = given_name k a' ->
  same_items (fun o => defines o (proj_name k a (name_of it))) (home k a e) (home k a' e').
Proof.
  intros HS. destruct HS as [l l' v i g fs|l l' v i g vs]; cbn [attrs_of s_attrs e_attrs has_proj name_of s_ident e_ident];
    intros H H' Ho Ho' Hh Hh' Hn o Hd;
    assert (Ep : proj_name k a i = proj_name k a' i) by (unfold proj_name; rewrite Hn; reflexivity).
  - destruct (struct_form _ _ _ H Ho) as [_ ->], (struct_form _ _ _ H' Ho') as [_ ->].
    rewrite (struct_type_iff a (spelled_struct (mkStruct l v i g fs)) k o l Ho Hh Hd), (struct_type_iff a' (spelled_struct (mkStruct l' v i g fs)) k o l' Ho' Hh') by (cbn; rewrite <- Ep; exact Hd).
    rewrite !struct_kind_eq. cbn [s_vis s_ident s_generics s_fields]. rewrite Ep. unfold kdef.
    assert (E : forall k, kdef k (struct_cx a (spelled_struct (mkStruct l v i g fs))) = kdef k (struct_cx a' (spelled_struct (mkStruct l' v i g fs))))
      by (intros []; reflexivity).
    specialize (E k). unfold kdef in E. rewrite E. reflexivity.
  - destruct (enum_form _ _ _ H Ho) as [Ha ->], (enum_form _ _ _ H' Ho') as [Ha' ->].
    rewrite (enum_type_iff a (spelled_enum (mkEnum l v i g vs)) k o l Ho (ae_replace_named _ _ Ha) Hh Hd), (enum_type_iff a' (spelled_enum (mkEnum l' v i g vs)) k o l' Ho' (ae_replace_named _ _ Ha') Hh')
      by (cbn; rewrite <- Ep; exact Hd).
    rewrite !enum_kind_eq. cbn [e_vis e_ident e_generics e_variants]. rewrite Ep. unfold kdef.
    assert (E : forall k, kdef k (enum_cx a (spelled_enum (mkEnum l v i g vs))) = kdef k (enum_cx a' (spelled_enum (mkEnum l' v i g vs))))
      by (intros []; reflexivity).
    specialize (E k). unfold kdef in E. rewrite E. reflexivity.
Qed.

(** ** Traits *)
Definition pins_of (it : item) : list ty :=
  match it with
  | ItStruct s => map f_ty (filter pin_b (fields_list (s_fields (spelled_struct s))))
  | ItEnum e => flat_map (fun v => pinned_tys (fields_list (v_fields v))) (e_variants (spelled_enum e))
  | ItOther => []
  end.
Definition cx_for (a : args) (it : item) : context :=
  match it with
  | ItStruct s => struct_cx a (spelled_struct s)
  | ItEnum e => enum_cx a (spelled_enum e)
  | ItOther => cx_of a [] VInherited (I "") (mkGenerics [] None) KStruct
  end.
Lemma in_traits it e a o : parse_derive it = Ok e -> options (attrs_of it) a -> (exists tr, is_impl_of tr o) ->
  (In o (all_items e) <-> In o (make_unpin_impl (cx_for a it) (pins_of it)) \/ In o (make_drop_impl (cx_for a it))).
Proof.
  intros H Ho (tr & Hi). destruct o as [| |im| | |]; try (destruct Hi; fail). cbn [is_impl_of] in Hi.
  destruct it as [s|en|]; [| |discriminate]; cbn [attrs_of cx_for pins_of] in *.
  - destruct (struct_form _ _ _ H Ho) as [_ ->]. unfold all_items, struct_out. change (cx_args (struct_cx a (spelled_struct s))) with a.
    cbn [exposed scoped]. generalize (make_unpin_impl (struct_cx a (spelled_struct s)) (map f_ty (filter pin_b (fields_list (s_fields (spelled_struct s)))))).
    generalize (make_drop_impl (struct_cx a (spelled_struct s))). intros dl ul.
    set (ml := make_proj_impl _ _ _ _). assert (Hm : OImpl im <> ml).
    { intros E. unfold ml, make_proj_impl in E. injection E as E. subst im. discriminate Hi. }
    clearbody ml. rewrite in_app_iff. cbn [In]. rewrite !in_app_iff. cbn [In].
    cases_options a; cbn [ar_project ar_project_ref ar_project_replace is_some pr_span pr_ident negb andb when In]; unfold struct_mut, struct_ref, struct_own, assert_item;
      intuition (try discriminate); try (exfalso; apply Hm; congruence).
  - destruct (enum_form _ _ _ H Ho) as [_ ->]. unfold all_items, enum_out. change (cx_args (enum_cx a (spelled_enum en))) with a.
    cbn [exposed scoped]. generalize (make_unpin_impl (enum_cx a (spelled_enum en)) (flat_map (fun v => pinned_tys (fields_list (v_fields v))) (e_variants (spelled_enum en)))).
    generalize (make_drop_impl (enum_cx a (spelled_enum en))). intros dl ul.
    set (ml := make_proj_impl _ _ _ _). assert (Hm : OImpl im <> ml).
    { intros E. unfold ml, make_proj_impl in E. injection E as E. subst im. discriminate Hi. }
    clearbody ml. rewrite in_app_iff. cbn [In]. rewrite !in_app_iff. cbn [In].
    cases_options a; cbn [ar_project ar_project_ref ar_project_replace is_some pr_span pr_ident negb andb when In]; unfold enum_mut, enum_ref, enum_own;
      intuition (try discriminate); try (exfalso; apply Hm; congruence).
Qed.
Lemma same_pins it it' : same_item it it' -> pins_of it = pins_of it'.
Proof. intros []; reflexivity. Qed.
Lemma same_unpin it it' a a' : same_item it it' -> ar_unpin a = ar_unpin a' ->
  make_unpin_impl (cx_for a it) (pins_of it) = make_unpin_impl (cx_for a' it') (pins_of it').
Proof.
  intros HS E. rewrite <- (same_pins it it' HS). destruct HS; unfold make_unpin_impl; cbn [cx_for];
    cbn [struct_cx enum_cx cx_of cx_args]; rewrite E; reflexivity.
Qed.
Lemma same_drop it it' a a' : same_item it it' -> ar_pinned_drop a = ar_pinned_drop a' ->
  make_drop_impl (cx_for a it) = make_drop_impl (cx_for a' it').
Proof.
  intros HS E. destruct HS; unfold make_drop_impl; cbn [cx_for]; cbn [struct_cx enum_cx cx_of cx_args]; rewrite E; reflexivity.
Qed.
(** Which of the two an impl is. *)
Lemma unpin_traits cx tys o tr : In o (make_unpin_impl cx tys) -> is_impl_of tr o -> tr = tr_unpin \/ tr = tr_unsafe_unpin.
Proof.
  unfold make_unpin_impl. destruct (ar_unpin (cx_args cx)); cbn [In]; intros H Hi; split_in H; subst o;
    cbn [is_impl_of empty_impl i_trait] in Hi; try contradiction; injection Hi as <-; auto.
Qed.
Lemma drop_traits cx o tr : In o (make_drop_impl cx) -> is_impl_of tr o -> tr <> tr_unpin /\ tr <> tr_unsafe_unpin.
Proof.
  unfold make_drop_impl. destruct (ar_pinned_drop (cx_args cx)); cbn [In]; intros H Hi; split_in H; subst o;
    cbn [is_impl_of i_trait] in Hi; try contradiction; injection Hi as <-; split; discriminate.
Qed.

Lemma c64_unpin it it' e e' a a' tr :
  same_item it it' -> parse_derive it = Ok e -> parse_derive it' = Ok e' -> options (attrs_of it) a -> options (attrs_of it') a' ->
  ar_unpin a = ar_unpin a' -> tr = support ["__private"; "Unpin"] \/ tr = support ["UnsafeUnpin"] ->
  same_items (is_impl_of tr) (all_items e) (all_items e').
Proof.
  intros HS H H' Ho Ho' E Ht o Hi. rewrite (in_traits it e a o H Ho) by eauto. rewrite (in_traits it' e' a' o H' Ho') by eauto.
  rewrite (same_unpin it it' a a' HS E).
  assert (D : forall b i, ~ In o (make_drop_impl (cx_for b i))).
  { intros b i X. destruct (drop_traits _ _ _ X Hi) as [D1 D2]. destruct Ht as [->| ->]; [apply D1|apply D2]; reflexivity. }
  pose proof (D a it). pose proof (D a' it'). tauto.
Qed.
Lemma c64_drop it it' e e' a a' tr :
  same_item it it' -> parse_derive it = Ok e -> parse_derive it' = Ok e' -> options (attrs_of it) a -> options (attrs_of it') a' ->
  ar_pinned_drop a = ar_pinned_drop a' -> tr <> support ["__private"; "Unpin"] -> tr <> support ["UnsafeUnpin"] ->
  same_items (is_impl_of tr) (all_items e) (all_items e').
Proof.
  intros HS H H' Ho Ho' E Ht1 Ht2 o Hi. rewrite (in_traits it e a o H Ho) by eauto. rewrite (in_traits it' e' a' o H' Ho') by eauto.
  rewrite (same_drop it it' a a' HS E).
  assert (D : forall b i, ~ In o (make_unpin_impl (cx_for b i) (pins_of i))).
  { intros b i X. destruct (unpin_traits _ _ _ _ X Hi) as [->| ->]; [apply Ht1|apply Ht2]; reflexivity. }
  pose proof (D a it). pose proof (D a' it'). tauto.
Qed.

(** The helper struct. *)
Lemma c64_helper it it' e e' a a' :
  same_item it it' -> parse_derive it = Ok e -> parse_derive it' = Ok e' -> options (attrs_of it) a -> options (attrs_of it') a' ->
  ar_unpin a = ar_unpin a' ->
  same_items (fun o => defines o (helper_name (name_of it))) (scoped e) (scoped e').
Proof.
  intros HS H H' Ho Ho' E o Hd.
  assert (X : forall it e a, parse_derive it = Ok e -> options (attrs_of it) a -> defines o (helper_name (name_of it)) ->
                (In o (scoped e) <-> In o (make_unpin_impl (cx_for a it) (pins_of it)))).
  { clear. intros it e a H Ho Hd. destruct it as [s|en|]; [| |discriminate]; cbn [attrs_of cx_for pins_of name_of] in *.
    - destruct (struct_form _ _ _ H Ho) as [_ ->]. split.
      + intros Hin. pose proof (proj2 (struct_home a (spelled_struct s) o _ Hd) Hin) as [_|(k & _ & Hg & Hn & _)].
        * unfold struct_out in Hin. cbn [scoped In] in Hin. rewrite !in_app_iff in Hin.
          destruct Hin as [Hin|[Hin|[Hin|Hin]]]; [subst o; destruct Hd| |exact Hin|].
          -- exfalso. revert Hin Hd. change (cx_args (struct_cx a (spelled_struct s))) with a.
             assert (Q : forall t, t <> "" -> I ("__" ++ name (s_ident s) ++ t) <> helper_name (s_ident s)).
             { intros t Ht Q. unfold helper_name in Q. cbn in Q. injection Q as Q. exact (append_longer _ _ Ht Q). }
             cases_options a; cbn [ar_project ar_project_ref ar_project_replace is_some pr_span pr_ident negb andb when In app];
               intros Hin Hd; split_in Hin; subst o; cbn [defines struct_mut struct_ref struct_own make_proj_impl assert_item] in Hd;
               try contradiction; refine (Q _ _ Hd); discriminate.
          -- exfalso. revert Hin Hd. unfold make_drop_impl. destruct (ar_pinned_drop _); cbn [In]; intros Hin Hd; split_in Hin; subst o; destruct Hd.
        * exfalso. exact (hidden_not_helper k a _ Hg (eq_sym Hn)).
      + intros Hin. unfold struct_out. cbn [scoped]. right. apply in_or_app. right. apply in_or_app. left. exact Hin.
    - destruct (enum_form _ _ _ H Ho) as [_ ->]. unfold enum_out. cbn [scoped In]. rewrite !in_app_iff. cbn [In]. split.
      + intros [Hin|[[Hin|[]]|[Hin|Hin]]]; [subst o; destruct Hd|subst o; destruct Hd|exact Hin|].
        exfalso. revert Hin Hd. unfold make_drop_impl. destruct (ar_pinned_drop _); cbn [In]; intros Hin Hd; split_in Hin; subst o; destruct Hd.
      + auto. }
  rewrite (X it e a H Ho Hd), (X it' e' a' H' Ho').
  - rewrite (same_unpin it it' a a' HS E). reflexivity.
  - destruct HS; exact Hd.
Qed.
Lemma c64_packed it it' e e' :
  same_item it it' -> parse_derive it = Ok e -> parse_derive it' = Ok e' -> same_items is_packed_check (all_items e) (all_items e').
Proof.
  intros HS H H' o Hi. destruct HS as [l l' v i g fs|l l' v i g vs].
  - apply parse_derive_struct in H, H'. destruct H as (a & _ & ->), H' as (a' & _ & ->).
    assert (X : forall b l, In o (all_items (struct_out (struct_cx b (spelled_struct (mkStruct l v i g fs))) (s_fields (spelled_struct (mkStruct l v i g fs))))) <->
                          o = assert_item (struct_cx base (spelled_struct (mkStruct [] v i g fs))) (s_fields (spelled_struct (mkStruct [] v i g fs)))).
    { clear - Hi. intros b l. unfold all_items, struct_out, make_unpin_impl, make_drop_impl.
      change (cx_args (struct_cx b (spelled_struct (mkStruct l v i g fs)))) with b. destruct o; try (destruct Hi; fail).
      cases_options b; cbn [ar_project ar_project_ref ar_project_replace ar_unpin ar_pinned_drop is_some exposed scoped when app negb pr_span pr_ident andb In];
        (split; [intros H; split_in H; try discriminate H; symmetry; exact H|intros ->; tauto]). }
    rewrite !X. reflexivity.
  - apply parse_derive_enum in H, H'. destruct H as (a & _ & ->), H' as (a' & _ & ->).
    assert (X : forall b l, ~ In o (all_items (enum_out (enum_cx b (spelled_enum (mkEnum l v i g vs))) (e_variants (spelled_enum (mkEnum l v i g vs)))))).
    { clear - Hi. intros b l. unfold all_items, enum_out, make_unpin_impl, make_drop_impl.
      change (cx_args (enum_cx b (spelled_enum (mkEnum l v i g vs)))) with b. destruct o; try (destruct Hi; fail).
      cases_options b; cbn [ar_project ar_project_ref ar_project_replace ar_unpin ar_pinned_drop is_some exposed scoped when app negb pr_span pr_ident andb In];
        intros H; split_in H; discriminate H. }
    pose proof (X a l). pose proof (X a' l'). tauto.
Qed.
