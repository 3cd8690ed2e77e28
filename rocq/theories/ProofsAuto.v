(** Proofs for C59. *)
From Coq Require Import String List Bool.
From Verif Require Import Base Syntax ModelArgs ModelUtils ModelDerive.
From Verif Require Import SpecArgs SpecDerive SpecLifetime SpecExpand SpecRun SpecTraits SpecDecl SpecSized SpecAuto.
From Verif Require Import ProofsDerive ProofsExpand ProofsTypes ProofsTraitsForm ProofsOutlives ProofsVis ProofsDecl ProofsSized.
Import ListNotations.
Open Scope string_scope.
Open Scope list_scope.

(** What a projected field needs. *)
Definition needed (k : proj) (x : auto_trait) : option auto_trait :=
  match x, k with
  | Send, PRef => Some Sync
  | Send, _ => Some Send
  | Sync, _ => Some Sync
  | Unpin, POwn => Some Unpin
  | Unpin, _ => None
  end.
Definition have (it : item) (h : auto_trait -> ty -> Prop) (y : option auto_trait) : Prop :=
  match y with Some y => fields_have it y h | None => True end.

Section Auto.
  Variable it : item.
  Variable e : expansion.
  Variable h : auto_trait -> ty -> Prop.
  Hypothesis Hr : auto_rules h e.

  Lemma field_has k lt f f' x : field_projected k lt (own_type (name_of it) (generics_of it)) f f' ->
    (h x (f_ty f') <-> match needed k x with Some y => h y (spelled_ty it f) | None => True end).
  Proof.
    intros HP. unfold spelled_ty. set (t := replace_ty _ _).
    assert (E : f_ty f' = pinned_ty k lt t \/ f_ty f' = unpinned_ty k lt t).
    { destruct (pinned_dec f) as [Hp|Hp]; [left; apply (fp_pinned _ _ _ _ _ HP Hp)|right; apply (fp_unpinned _ _ _ _ _ HP Hp)]. }
    clear HP.
    assert (R : forall m, h x (TyRef (Some lt) m (TyParen t)) <->
      match x, m with Send, false => h Sync t | Send, true => h Send t | Sync, _ => h Sync t | Unpin, _ => True end).
    { intros m. destruct x, m.
      - rewrite (au_mut_send _ _ Hr), (au_paren _ _ Hr). tauto.
      - rewrite (au_ref_send _ _ Hr), (au_paren _ _ Hr). tauto.
      - rewrite (au_ref_sync _ _ Hr), (au_paren _ _ Hr). tauto.
      - rewrite (au_ref_sync _ _ Hr), (au_paren _ _ Hr). tauto.
      - split; [tauto|intros _; apply (au_ref_unpin _ _ Hr)].
      - split; [tauto|intros _; apply (au_ref_unpin _ _ Hr)]. }
    destruct E as [->| ->], k; cbn [pinned_ty unpinned_ty];
      try rewrite (au_pin _ _ Hr _ _ _ (lib_abs _ _)); try rewrite (au_phantom _ _ Hr _ _ _ (lib_abs _ _)); try rewrite R;
      destruct x; cbn [needed]; tauto.
  Qed.

  Lemma fields_all k lt fs fs' x : fields_projected k lt (own_type (name_of it) (generics_of it)) fs fs' ->
    ((forall f, In f (fields_list fs') -> h x (f_ty f)) <->
     match needed k x with Some y => forall f, In f (fields_list fs) -> h y (spelled_ty it f) | None => True end).
  Proof.
    intros HP. apply fields_projected_list in HP. split.
    - intros H. destruct (needed k x) as [y|] eqn:E; [|exact Logic.I]. intros f Hf.
      destruct (Forall2_in_l _ _ _ _ HP Hf) as (f' & Hf' & HF). apply H in Hf'.
      apply (field_has _ _ _ _ x HF) in Hf'. rewrite E in Hf'. exact Hf'.
    - intros H f' Hf'. destruct (Forall2_in_r _ _ _ HP _ Hf') as (f & Hf & HF).
      apply (field_has _ _ _ _ x HF). destruct (needed k x); [apply H; exact Hf|exact Logic.I].
  Qed.
End Auto.

(** The projected types, with the names that the methods use. *)
Lemma enum_proj_vs en e a k : parse_derive (ItEnum en) = Ok e -> options (e_attrs en) a -> ordered (g_params (e_generics en)) ->
  enum_has k a = true -> forall lt, pin_lifetime (e_generics en) lt ->
  exists v vs', In (OEnum v (proj_name k a (e_ident en)) (pgen k lt (e_ident en) (e_generics en)) vs') (all_items e) /\
    Forall2 (variant_projected k lt (own_type (e_ident en) (e_generics en))) (e_variants en) vs'.
Proof.
  intros H Ho Hord Hk lt Hlt. destruct (enum_form _ _ _ H Ho) as [_ E0].
  pose proof (enum_kind_in k a (enum_cx a (spelled_enum en)) (e_variants (spelled_enum en)) eq_refl Hk) as Hin.
  rewrite enum_kind_eq in Hin. rewrite kdef_enum in Hin by exact Hord.
  pose proof (pin_lifetime_unique _ _ _ Hlt (enum_lt_ok en)) as El. subst lt.
  do 2 eexists. split; [rewrite E0; unfold all_items; apply in_or_app; left; exact Hin|].
  rewrite <- self_type_own. apply variants_projected.
Qed.
Lemma proj_declared it e a k h x lt : parse_derive it = Ok e -> options (attrs_of it) a -> ordered (g_params (generics_of it)) ->
  auto_rules h e -> has_proj k it a = true -> pin_lifetime (generics_of it) lt ->
  (h x (declared_ty (proj_name k a (name_of it)) (g_params (pgen k lt (name_of it) (generics_of it)))) <-> have it h (needed k x)).
Proof.
  intros Hd Ho Hord Hr Hh Hlt. destruct it as [s|en|]; [| |discriminate].
  - destruct (struct_proj_in _ _ _ _ Hd Ho Hord Hh lt Hlt) as (v & fs' & Hin & HP).
    rewrite (au_struct _ _ Hr _ _ _ _ _ Hin). rewrite (fields_all (ItStruct s) e h Hr k lt (s_fields s) fs' x HP).
    unfold have, fields_have. destruct (needed k x) as [y|]; [|tauto]. cbn [fields_of]. split.
    + intros H fs f [<-|[]] Hf. apply H. exact Hf.
    + intros H f Hf. apply (H (s_fields s)); [left; reflexivity|exact Hf].
  - destruct (enum_proj_vs _ _ _ _ Hd Ho Hord Hh lt Hlt) as (v & vs' & Hin & HP).
    rewrite (au_enum _ _ Hr _ _ _ _ _ Hin). unfold have, fields_have. cbn [fields_of]. split.
    + intros H. destruct (needed k x) as [y|] eqn:E; [|exact Logic.I]. intros fs f Hfs. apply in_map_iff in Hfs.
      destruct Hfs as (w & <- & Hw). destruct (Forall2_in_l _ _ _ _ HP Hw) as (w' & Hw' & HW).
      pose proof (proj1 (fields_all (ItEnum en) e h Hr k lt _ _ x (vp_fields _ _ _ _ _ HW)) (fun f => H w' f Hw')) as X.
      rewrite E in X. apply X.
    + intros H w' f' Hw' Hf'. destruct (Forall2_in_r _ _ _ HP _ Hw') as (w & Hw & HW).
      revert f' Hf'. apply (proj2 (fields_all (ItEnum en) e h Hr k lt _ _ x (vp_fields _ _ _ _ _ HW))).
      destruct (needed k x) as [y|]; [|exact Logic.I]. intros f. apply (H (v_fields w)). apply in_map. exact Hw.
Qed.

Lemma auto_all it e h k m t x : parse_derive it = Ok e -> ordered (g_params (generics_of it)) -> auto_rules h e ->
  In m (inherent_methods e) -> m_name m = proj_method k -> m_ret m = Some t ->
  (h x t <-> have it h (needed k x)).
Proof.
  intros Hd Hord Hr Hm Hn Ht.
  assert (Ho : exists a, options (attrs_of it) a).
  { destruct (derive_form _ _ Hd) as [(s & a & -> & _ & Ho & _)|(en' & a & -> & _ & Ho & _)]; exists a; exact Ho. }
  destruct Ho as (a & Ho). apply in_inherent_methods in Hm. destruct Hm as (im0 & Him & Hm).
  destruct (inherent_impl it e a Hd Ho Hord) as (im & lt & E & Hlt & HP). rewrite E in Him. destruct Him as [<-|[]].
  destruct (Forall2_in_r _ _ _ (pi_methods _ _ _ _ _ _ HP) _ Hm) as (k' & Hk & Hkm). apply filter_In in Hk. destruct Hk as [_ Hk].
  assert (k' = k).
  { pose proof (pm_name _ _ _ _ _ _ Hkm) as X. rewrite Hn in X. destruct k, k'; first [reflexivity|discriminate]. }
  subst k'. rewrite (pm_ret _ _ _ _ _ _ Hkm) in Ht. injection Ht as <-. rewrite (ret_eq it a k lt (name_of it)).
  apply (proj_declared it e a k h x lt); assumption.
Qed.

Lemma c59_send it e h k m t : parse_derive it = Ok e -> ordered (g_params (generics_of it)) -> auto_rules h e ->
  In m (inherent_methods e) -> m_name m = proj_method k -> m_ret m = Some t ->
  (h Send t <-> fields_have it (match k with PRef => Sync | PMut | POwn => Send end) h).
Proof. intros H1 H2 H3 H4 H5 H6. pose proof (auto_all it e h k m t Send H1 H2 H3 H4 H5 H6) as H. destruct k; exact H. Qed.
Lemma c59_sync it e h k m t : parse_derive it = Ok e -> ordered (g_params (generics_of it)) -> auto_rules h e ->
  In m (inherent_methods e) -> m_name m = proj_method k -> m_ret m = Some t ->
  (h Sync t <-> fields_have it Sync h).
Proof. intros H1 H2 H3 H4 H5 H6. pose proof (auto_all it e h k m t Sync H1 H2 H3 H4 H5 H6) as H. destruct k; exact H. Qed.
Lemma c59_unpin it e h k m t : parse_derive it = Ok e -> ordered (g_params (generics_of it)) -> auto_rules h e ->
  In m (inherent_methods e) -> m_name m = proj_method k -> m_ret m = Some t ->
  (h Unpin t <-> match k with PMut | PRef => True | POwn => fields_have it Unpin h end).
Proof. intros H1 H2 H3 H4 H5 H6. pose proof (auto_all it e h k m t Unpin H1 H2 H3 H4 H5 H6) as H. destruct k; exact H. Qed.
