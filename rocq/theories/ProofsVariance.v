(** Proofs for C61. *)
From Coq Require Import String List Bool.
From Verif Require Import Base Syntax ModelArgs ModelUtils ModelDerive.
From Verif Require Import SpecArgs SpecDerive SpecLifetime SpecExpand SpecRun SpecTraits SpecDecl SpecSized SpecVariance.
From Verif Require Import ProofsUtils ProofsDerive ProofsExpand ProofsTypes ProofsTraitsForm ProofsOutlives ProofsVis ProofsDecl ProofsSized ProofsAuto.
Import ListNotations.
Open Scope string_scope.
Open Scope list_scope.

(** What a projected field needs of the field's type. *)
Definition wanted (k : proj) (d : direction) (A : direction -> Prop) : Prop :=
  match k with PMut => A Co /\ A Contra | PRef | POwn => A d end.
Lemma wanted_all {X} k d (P : X -> Prop) (A : X -> direction -> Prop) :
  wanted k d (fun d => forall x, P x -> A x d) <-> (forall x, P x -> wanted k d (A x)).
Proof.
  destruct k; cbn [wanted]; [|tauto|tauto]. split; [intros [H1 H2] x Hx; auto|]. intros H. split; intros x Hx; apply H; exact Hx.
Qed.
Lemma wanted_iff k d A B : (forall d, A d <-> B d) -> (wanted k d A <-> wanted k d B).
Proof. intros H. destruct k; cbn [wanted]; rewrite ?H; tauto. Qed.

Section Variance.
  Variable it : item.
  Variable e : expansion.
  Variable v : direction -> param -> ty -> Prop.
  Hypothesis Hr : variance_rules v it e.

  Lemma field_varies k lt f f' d p : field_projected k lt (own_type (name_of it) (generics_of it)) f f' ->
    (v d p (f_ty f') <-> wanted k d (fun d => v d p (spelled_ty it f)) /\ (k <> POwn -> d = Contra -> p <> Lifetime lt)).
  Proof.
    intros HP. unfold spelled_ty. set (t := replace_ty _ _).
    assert (E : f_ty f' = pinned_ty k lt t \/ f_ty f' = unpinned_ty k lt t).
    { destruct (pinned_dec f) as [Hp|Hp]; [left; apply (fp_pinned _ _ _ _ _ HP Hp)|right; apply (fp_unpinned _ _ _ _ _ HP Hp)]. }
    clear HP.
    assert (N : forall A : Prop, (POwn <> POwn -> A) <-> True) by tauto.
    assert (M : forall k (A : Prop), k = PMut \/ k = PRef -> ((k <> POwn -> A) <-> A)) by (intros k0 A [->| ->]; split; auto; intros H; apply H; discriminate).
    destruct E as [->| ->], k; cbn [pinned_ty unpinned_ty wanted]; rewrite ?N;
      try rewrite (M PMut) by auto; try rewrite (M PRef) by auto;
      try rewrite (va_pin _ _ _ Hr _ _ _ _ (lib_abs _ _)); try rewrite (va_phantom _ _ _ Hr _ _ _ _ (lib_abs _ _));
      try rewrite (va_mut _ _ _ Hr); try rewrite (va_ref _ _ _ Hr); rewrite ?(va_paren _ _ _ Hr); tauto.
  Qed.
  Lemma fields_vary k lt fs fs' d p : fields_projected k lt (own_type (name_of it) (generics_of it)) fs fs' ->
    ((forall f, In f (fields_list fs') -> v d p (f_ty f)) <->
     (forall f, In f (fields_list fs) -> wanted k d (fun d => v d p (spelled_ty it f)) /\ (k <> POwn -> d = Contra -> p <> Lifetime lt))).
  Proof.
    intros HP. apply fields_projected_list in HP. split.
    - intros H f Hf. destruct (Forall2_in_l _ _ _ _ HP Hf) as (f' & Hf' & HF). apply H in Hf'.
      apply (field_varies _ _ _ _ _ _ HF) in Hf'. exact Hf'.
    - intros H f' Hf'. destruct (Forall2_in_r _ _ _ HP _ Hf') as (f & Hf & HF). apply (field_varies _ _ _ _ _ _ HF). apply H. exact Hf.
  Qed.
End Variance.

Lemma declared_varies it e a k v d p lt : parse_derive it = Ok e -> options (attrs_of it) a -> ordered (g_params (generics_of it)) ->
  variance_rules v it e -> has_proj k it a = true -> pin_lifetime (generics_of it) lt ->
  (v d p (declared_ty (proj_name k a (name_of it)) (g_params (pgen k lt (name_of it) (generics_of it)))) <->
   forall fs f, In fs (fields_of it) -> In f (fields_list fs) ->
     wanted k d (fun d => v d p (spelled_ty it f)) /\ (k <> POwn -> d = Contra -> p <> Lifetime lt)).
Proof.
  intros Hd Ho Hord Hr Hh Hlt. destruct it as [s|en|]; [| |discriminate].
  - destruct (struct_proj_in _ _ _ _ Hd Ho Hord Hh lt Hlt) as (w & fs' & Hin & HP).
    rewrite (va_struct _ _ _ Hr _ _ _ _ _ _ Hin). rewrite (fields_vary (ItStruct s) e v Hr k lt (s_fields s) fs' d p HP).
    cbn [fields_of]. split.
    + intros H fs f [<-|[]] Hf. apply H. exact Hf.
    + intros H f Hf. apply (H (s_fields s)); [left; reflexivity|exact Hf].
  - destruct (enum_proj_vs _ _ _ _ Hd Ho Hord Hh lt Hlt) as (w & vs' & Hin & HP).
    rewrite (va_enum _ _ _ Hr _ _ _ _ _ _ Hin). cbn [fields_of]. split.
    + intros H fs f Hfs. apply in_map_iff in Hfs.
      destruct Hfs as (x & <- & Hx). destruct (Forall2_in_l _ _ _ _ HP Hx) as (x' & Hx' & HX).
      apply (proj1 (fields_vary (ItEnum en) e v Hr k lt _ _ d p (vp_fields _ _ _ _ _ HX)) (fun f => H x' f Hx')).
    + intros H x' f' Hx' Hf'. destruct (Forall2_in_r _ _ _ HP _ Hx') as (x & Hx & HX).
      revert f' Hf'. apply (proj2 (fields_vary (ItEnum en) e v Hr k lt _ _ d p (vp_fields _ _ _ _ _ HX))).
      intros f. apply (H (v_fields x)). apply in_map. exact Hx.
Qed.

Lemma result_varies it e v k m t : parse_derive it = Ok e -> ordered (g_params (generics_of it)) -> variance_rules v it e ->
  In m (inherent_methods e) -> m_name m = proj_method k -> m_ret m = Some t ->
  exists lt, pin_lifetime (generics_of it) lt /\ m_lts m = match k with POwn => [] | _ => [lt] end /\
  forall d p, v d p t <->
   forall fs f, In fs (fields_of it) -> In f (fields_list fs) ->
     wanted k d (fun d => v d p (spelled_ty it f)) /\ (k <> POwn -> d = Contra -> p <> Lifetime lt).
Proof.
  intros Hd Hord Hr Hm Hn Ht.
  assert (Ho : exists a, options (attrs_of it) a).
  { destruct (derive_form _ _ Hd) as [(s & a & -> & _ & Ho & _)|(en' & a & -> & _ & Ho & _)]; exists a; exact Ho. }
  destruct Ho as (a & Ho). apply in_inherent_methods in Hm. destruct Hm as (im0 & Him & Hm).
  destruct (inherent_impl it e a Hd Ho Hord) as (im & lt & E & Hlt & HP). rewrite E in Him. destruct Him as [<-|[]].
  destruct (Forall2_in_r _ _ _ (pi_methods _ _ _ _ _ _ HP) _ Hm) as (k' & Hk & Hkm). apply filter_In in Hk. destruct Hk as [_ Hk].
  assert (k' = k).
  { pose proof (pm_name _ _ _ _ _ _ Hkm) as X. rewrite Hn in X. destruct k, k'; first [reflexivity|discriminate]. }
  subst k'. rewrite (pm_ret _ _ _ _ _ _ Hkm) in Ht. injection Ht as <-.
  exists lt. split; [exact Hlt|]. split; [rewrite (pm_lts _ _ _ _ _ _ Hkm); destruct k; reflexivity|].
  intros d p. rewrite (ret_eq it a k lt (name_of it)). apply (declared_varies it e a k v d p lt); assumption.
Qed.

Lemma not_pin it lt p : pin_lifetime (generics_of it) lt -> param_of it p -> p <> Lifetime lt.
Proof.
  intros Hlt Hp E. subst p. inversion Hp as [? bs Hin|]; subst. rewrite params_of_generics in Hin.
  apply (pin_lifetime_fresh _ _ Hlt). eapply D_param. exact Hin.
Qed.

Lemma c61_params it e v k m t d p : parse_derive it = Ok e -> ordered (params_of it) -> variance_rules v it e ->
  In m (inherent_methods e) -> m_name m = proj_method k -> m_ret m = Some t -> param_of it p ->
  let here := declared_ty (name_of it) (params_of it) in
  (v d p t <-> match k with PMut => v Co p here /\ v Contra p here | PRef | POwn => v d p here end).
Proof.
  intros Hd Hord Hr Hm Hn Ht Hp here. rewrite params_of_generics in Hord.
  destruct (result_varies it e v k m t Hd Hord Hr Hm Hn Ht) as (lt & Hlt & _ & H). rewrite H. clear H.
  pose proof (not_pin _ _ _ Hlt Hp) as Hne. unfold here.
  assert (X : (match k with PMut => v Co p here /\ v Contra p here | PRef | POwn => v d p here end) <->
    forall fs f, In fs (fields_of it) -> In f (fields_list fs) -> wanted k d (fun d => v d p (spelled_ty it f))).
  { unfold here. destruct k; cbn [wanted]; rewrite ?(va_item _ _ _ Hr); [|tauto|tauto].
    split; [intros [H1 H2] fs f Hfs Hf; split; [apply (H1 fs)|apply (H2 fs)]; assumption|].
    intros H; split; intros fs f Hfs Hf; apply (H fs f Hfs Hf). }
  fold here. rewrite X. clear X. split; intros H fs f Hfs Hf.
  - apply (H fs f Hfs Hf).
  - split; [apply (H fs f Hfs Hf)|]. intros _ _. exact Hne.
Qed.

Lemma c61_lifetime it e v k m t lt : parse_derive it = Ok e -> ordered (params_of it) -> variance_rules v it e ->
  In m (inherent_methods e) -> m_name m = proj_method k -> m_ret m = Some t -> In lt (m_lts m) ->
  v Co (Lifetime lt) t /\ ~ v Contra (Lifetime lt) t.
Proof.
  intros Hd Hord Hr Hm Hn Ht Hin. rewrite params_of_generics in Hord.
  destruct (result_varies it e v k m t Hd Hord Hr Hm Hn Ht) as (lt' & Hlt & El & H). rewrite El in Hin.
  assert (Hk : k <> POwn) by (intros ->; destruct Hin).
  assert (lt' = lt) by (destruct k; [destruct Hin as [E|[]]; exact E|destruct Hin as [E|[]]; exact E|destruct Hin]). subst lt'.
  assert (Hf : forall d fs f, In fs (fields_of it) -> In f (fields_list fs) -> v d (Lifetime lt) (spelled_ty it f)).
  { intros d fs f. apply (va_fresh _ _ _ Hr). intros bs Hb. rewrite params_of_generics in Hb.
    apply (pin_lifetime_fresh _ _ Hlt). eapply D_param. exact Hb. }
  rewrite !H. split.
  - intros fs f Hfs Hff. split; [|discriminate]. destruct k; cbn [wanted]; [split|..]; apply (Hf _ fs); assumption.
  - intros X. destruct (some_field _ _ Hd) as (fs & f & Hfs & Hff). destruct (X fs f Hfs Hff) as [_ Y]. apply Y; [exact Hk|reflexivity|reflexivity].
Qed.
