From Coq Require Import String List Bool.
From Verif Require Import Base Syntax ModelArgs ModelUtils ModelDerive.
From Verif Require Import SpecArgs SpecDerive SpecLifetime SpecExpand SpecVis ProofsArgs ProofsDerive ProofsExpand ProofsUtils ProofsTypes.
Import ListNotations.
Open Scope string_scope.
Open Scope list_scope.

Lemma within_nil m : within [] m. Proof. exists m. reflexivity. Qed.

Lemma determine_visibility_ok ed m v : legal ed m v ->
  legal ed m (determine_visibility v) /\
  forall w, visible ed m (determine_visibility v) w <-> visible ed m v w /\ w <> OtherCrate.
Proof.
  intros H. destruct v as [| |b p]; cbn [determine_visibility].
  - split; [exact H|]. intros w. cbn. split.
    + intros (x & -> & Hx). split; [eauto|discriminate].
    + intros [Hx _]. exact Hx.
  - split.
    + exists []. split; [reflexivity|apply within_nil].
    + intros w. cbn. split.
      * intros (t & x & _ & -> & _). split; [exact Logic.I|discriminate].
      * intros [_ Hw]. destruct w as [x|]; [|elim Hw; reflexivity]. exists [], x. split; [reflexivity|]. split; [reflexivity|apply within_nil].
  - split; [exact H|]. intros w. cbn. split.
    + intros (t & x & E & -> & Hx). split; [exists t, x; auto|discriminate].
    + intros [Hx _]. exact Hx.
Qed.


(** Either the spelling [pub(self)] is not used, or the result is legal in a
    recent edition. *)
Definition fine (ed : edition) (m : module) (v v' : vis) : Prop :=
  ~ is_pub_self v \/ (ed = Rust2018 /\ legal ed m v').
Lemma vis_ok ed m v v' : v' = determine_visibility (replace_vis v) -> fine ed m v v' -> legal ed m v ->
  same_in_crate ed m v v'.
Proof.
  intros -> [H|[-> H]] Hl.
  - rewrite replace_vis_id by exact H. apply determine_visibility_ok. exact Hl.
  - destruct v as [| |b p]; try (apply determine_visibility_ok; exact Hl).
    destruct p as [|i [|j p]]; try (apply determine_visibility_ok; exact Hl).
    revert H. cbn [replace_vis replace_ids]. unfold prepend_underscore_to_self.
    destruct (ident_is i "self") eqn:E; [|intros _; apply determine_visibility_ok; exact Hl].
    cbn [determine_visibility legal]. intros (t & Ht & _). discriminate.
Qed.

Lemma struct_vis s e a v n g fs' ed m : parse_derive (ItStruct s) = Ok e -> options (s_attrs s) a ->
  In (OStruct v n g fs') (all_items e) -> n <> helper_name (s_ident s) ->
  fine ed m (s_vis s) v -> legal ed m (s_vis s) -> same_in_crate ed m (s_vis s) v.
Proof.
  intros H Ho Hin Hn Hf Hl. destruct (struct_form _ _ _ H Ho) as [_ ->].
  apply struct_types_only in Hin. destruct Hin as [[E _]|(k & Hk & E)]; [elim Hn; exact E|].
  rewrite struct_kind_eq in E. injection E as -> -> -> ->. apply vis_ok; [reflexivity|exact Hf|exact Hl].
Qed.
Lemma enum_vis e x a v n g vs' ed m : parse_derive (ItEnum e) = Ok x -> options (e_attrs e) a ->
  In (OEnum v n g vs') (all_items x) ->
  fine ed m (e_vis e) v -> legal ed m (e_vis e) -> same_in_crate ed m (e_vis e) v.
Proof.
  intros H Ho Hin Hf Hl. destruct (enum_form _ _ _ H Ho) as [Ha ->].
  apply enum_types_only in Hin; [|apply (ae_replace_named _ _ Ha)]. destruct Hin as (k & Hk & E).
  rewrite enum_kind_eq in E. injection E as -> -> -> ->. apply vis_ok; [reflexivity|exact Hf|exact Hl].
Qed.
Lemma in_inherent_methods me e : In me (inherent_methods e) ->
  exists im, In im (inherent_impls (all_items e)) /\ In me (i_methods im).
Proof.
  intros H. unfold inherent_methods in H. apply in_flat_map in H. destruct H as (x & Hx & Hm).
  destruct x as [| |im| | |]; try destruct Hm. cbn in Hm. destruct (i_trait im) eqn:E; [destruct Hm|].
  exists im. split; [|exact Hm]. unfold inherent_impls. apply in_flat_map. exists (OImpl im). split; [exact Hx|].
  rewrite E. left. reflexivity.
Qed.
Lemma struct_method_vis s e me ed m : parse_derive (ItStruct s) = Ok e -> In me (inherent_methods e) ->
  fine ed m (s_vis s) (m_vis me) -> legal ed m (s_vis s) -> same_in_crate ed m (s_vis s) (m_vis me).
Proof.
  intros H Hm. apply parse_derive_struct in H. destruct H as (a & Ha & ->).
  apply in_inherent_methods in Hm. destruct Hm as (im & Him & Hm).
  rewrite (struct_impls a) in Him by reflexivity. destruct Him as [<-|[]]. cbn [i_methods] in Hm.
  apply in_map_iff in Hm. destruct Hm as (k & <- & _). apply vis_ok. destruct k; reflexivity.
Qed.
Lemma enum_method_vis e x me ed m : parse_derive (ItEnum e) = Ok x -> In me (inherent_methods x) ->
  fine ed m (e_vis e) (m_vis me) -> legal ed m (e_vis e) -> same_in_crate ed m (e_vis e) (m_vis me).
Proof.
  intros H Hm. apply parse_derive_enum in H. destruct H as (a & Ha & ->).
  apply in_inherent_methods in Hm. destruct Hm as (im & Him & Hm).
  rewrite (enum_impls a) in Him; [|reflexivity|reflexivity|apply (ae_replace_named _ _ Ha)]. destruct Him as [<-|[]]. cbn [i_methods] in Hm.
  apply in_map_iff in Hm. destruct Hm as (k & <- & _). apply vis_ok. destruct k; reflexivity.
Qed.

(** Fields. *)
Lemma struct_field_vis s e a v n g fs' : parse_derive (ItStruct s) = Ok e -> options (s_attrs s) a ->
  In (OStruct v n g fs') (all_items e) -> n <> helper_name (s_ident s) ->
  (forall f, In f (fields_list (s_fields s)) -> ~ is_pub_self (f_vis f)) ->
  map f_vis (fields_list fs') = map f_vis (fields_list (s_fields s)).
Proof.
  intros H Ho Hin Hn Hv. destruct (c09_struct_only _ _ _ _ _ _ _ H Ho Hin) as [[E _]|(k & lt & _ & _ & _ & Hp)]; [contradiction|].
  assert (G : forall l l', Forall2 (field_projected k lt (own_type (s_ident s) (s_generics s))) l l' ->
    (forall f, In f l -> ~ is_pub_self (f_vis f)) -> map f_vis l' = map f_vis l).
  { intros l l' F. induction F as [|f f' l l' Hf _ IH]; intros Hl; [reflexivity|]. cbn [map].
    rewrite IH by (intros; apply Hl; right; assumption). f_equal. apply (fp_vis _ _ _ _ _ Hf). apply Hl. left. reflexivity. }
  destruct Hp; cbn [fields_list] in *; [apply G; assumption|apply G; assumption|reflexivity].
Qed.

Lemma struct_field_vis_legal s e a v n g fs' m : parse_derive (ItStruct s) = Ok e -> options (s_attrs s) a ->
  In (OStruct v n g fs') (all_items e) -> n <> helper_name (s_ident s) ->
  (forall f, In f (fields_list fs') -> legal Rust2018 m (f_vis f)) ->
  map f_vis (fields_list fs') = map f_vis (fields_list (s_fields s)).
Proof.
  intros H Ho Hin Hn Hv. destruct (c09_struct_only _ _ _ _ _ _ _ H Ho Hin) as [[E _]|(k & lt & _ & _ & _ & Hp)]; [contradiction|].
  assert (G : forall l l', Forall2 (field_projected k lt (own_type (s_ident s) (s_generics s))) l l' ->
    (forall f, In f l' -> legal Rust2018 m (f_vis f)) -> map f_vis l' = map f_vis l).
  { intros l l' F. induction F as [|f f' l l' Hf _ IH]; intros Hl; [reflexivity|]. cbn [map].
    rewrite IH by (intros; apply Hl; right; assumption). f_equal.
    apply (fp_vis _ _ _ _ _ Hf). intros [b Hb]. specialize (Hl f' (or_introl eq_refl)).
    rewrite (fp_pub_self _ _ _ _ _ Hf b Hb) in Hl. destruct Hl as (t & Ht & _). discriminate. }
  destruct Hp; cbn [fields_list] in *; [apply G; assumption|apply G; assumption|reflexivity].
Qed.

(** The theorems of C13. *)
Lemma c13_struct s e a v n g fs' m : parse_derive (ItStruct s) = Ok e -> options (s_attrs s) a ->
  In (OStruct v n g fs') (all_items e) -> n <> helper_name (s_ident s) ->
  legal Rust2018 m (s_vis s) -> legal Rust2018 m v -> same_in_crate Rust2018 m (s_vis s) v.
Proof. intros H Ho Hin Hn Hl Hl'. eapply struct_vis; eauto. right. auto. Qed.
Lemma c13_enum e x a v n g vs' m : parse_derive (ItEnum e) = Ok x -> options (e_attrs e) a ->
  In (OEnum v n g vs') (all_items x) ->
  legal Rust2018 m (e_vis e) -> legal Rust2018 m v -> same_in_crate Rust2018 m (e_vis e) v.
Proof. intros H Ho Hin Hl Hl'. eapply enum_vis; eauto. right. auto. Qed.
Lemma c13_struct_methods s e me m : parse_derive (ItStruct s) = Ok e -> In me (inherent_methods e) ->
  legal Rust2018 m (s_vis s) -> legal Rust2018 m (m_vis me) -> same_in_crate Rust2018 m (s_vis s) (m_vis me).
Proof. intros H Hm Hl Hl'. eapply struct_method_vis; eauto. right. auto. Qed.
Lemma c13_enum_methods e x me m : parse_derive (ItEnum e) = Ok x -> In me (inherent_methods x) ->
  legal Rust2018 m (e_vis e) -> legal Rust2018 m (m_vis me) -> same_in_crate Rust2018 m (e_vis e) (m_vis me).
Proof. intros H Hm Hl Hl'. eapply enum_method_vis; eauto. right. auto. Qed.
Lemma c13_struct_any s e a v n g fs' ed m : parse_derive (ItStruct s) = Ok e -> options (s_attrs s) a ->
  In (OStruct v n g fs') (all_items e) -> n <> helper_name (s_ident s) ->
  ~ is_pub_self (s_vis s) -> legal ed m (s_vis s) -> same_in_crate ed m (s_vis s) v.
Proof. intros H Ho Hin Hn Hp Hl. eapply struct_vis; eauto. left. auto. Qed.
Lemma c13_enum_any e x a v n g vs' ed m : parse_derive (ItEnum e) = Ok x -> options (e_attrs e) a ->
  In (OEnum v n g vs') (all_items x) ->
  ~ is_pub_self (e_vis e) -> legal ed m (e_vis e) -> same_in_crate ed m (e_vis e) v.
Proof. intros H Ho Hin Hp Hl. eapply enum_vis; eauto. left. auto. Qed.
Lemma c13_struct_methods_any s e me ed m : parse_derive (ItStruct s) = Ok e -> In me (inherent_methods e) ->
  ~ is_pub_self (s_vis s) -> legal ed m (s_vis s) -> same_in_crate ed m (s_vis s) (m_vis me).
Proof. intros H Hm Hp Hl. eapply struct_method_vis; eauto. left. auto. Qed.
Lemma c13_enum_methods_any e x me ed m : parse_derive (ItEnum e) = Ok x -> In me (inherent_methods x) ->
  ~ is_pub_self (e_vis e) -> legal ed m (e_vis e) -> same_in_crate ed m (e_vis e) (m_vis me).
Proof. intros H Hm Hp Hl. eapply enum_method_vis; eauto. left. auto. Qed.

(** ** The inserted lifetime *)
Lemma pin_lifetime_det g : pin_lifetime g (determine_lifetime_name "'pin" g).
Proof. destruct (determine_lifetime_name_spec "'pin" g) as (n & -> & H1 & H2). exists n. auto. Qed.
Lemma pin_lifetime_ex g : exists lt, pin_lifetime g lt /\ forall lt', pin_lifetime g lt' -> lt' = lt.
Proof.
  exists (determine_lifetime_name "'pin" g). split; [apply pin_lifetime_det|].
  intros lt' H. apply (pin_lifetime_unique g); [exact H|apply pin_lifetime_det].
Qed.
Lemma pin_lifetime_fresh g lt : pin_lifetime g lt -> ~ declared g lt.
Proof.
  intros (n & -> & H & _) Hd. apply (H _ Hd). exists EmptyString. symmetry. apply sapp_nil.
Qed.
