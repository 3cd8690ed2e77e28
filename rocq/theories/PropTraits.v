(** C26 to C33, C43, C48: which traits the item implements. *)
From Coq Require Import String Ascii List Bool.
From Verif Require Import Base Syntax ModelArgs ModelUtils ModelDerive ModelMeaning ModelTraits.
From Verif Require Import SpecArgs SpecDerive SpecLifetime SpecExpand SpecRun SpecMeaning SpecTraits.
From Verif Require Import ProofsTraitsProps Examples ExamplesTraits ExamplesRenamed.
Import ListNotations.
Open Scope string_scope.
Open Scope list_scope.

(** ** C26 *)
Theorem C26_drop_rejected_partial : forall se holds fails a x s l,
  options (attrs_of (se_item se)) a -> rust se -> legal se -> uncaptured se ->
  solution se holds -> headers_ok se holds -> refuter se holds fails ->
  ar_pinned_drop a = true \/ sized_at se s l ->
  In x (se_impls se) -> applies se holds x (drop_trait se) (item_at se s l) ->
  ~ coherent se fails.
Proof. exact c26. Qed.
Print Assumptions C26_drop_rejected_partial.
(** Missing: instances that are not [Sized].  The blanket impl that detects
    [Drop] asks for [Sized], so that for [struct Foo { #[pin] a: u8, b: [u8] }]
    nothing stops the user: *)
Theorem C26_refuted : exists se holds fails a x s l,
  options (attrs_of (se_item se)) a /\ ar_pinned_drop a = false /\ legal se /\ uncaptured se /\ compiles se holds fails /\
  In x (se_impls se) /\ applies se holds x (drop_trait se) (item_at se s l).
Proof. exact c26_refuted. Qed.
Print Assumptions C26_refuted.

(** And there is no conflict unless such an impl is for a [Sized] instance. *)
Theorem C26_no_conflict : forall se holds fails a,
  options (attrs_of (se_item se)) a -> rust se -> visible se ->
  solution se holds -> refutes_drop se holds fails -> refutes_sized se holds fails ->
  (forall x s l, In x (se_impls se) -> applies se holds x (drop_trait se) (item_at se s l) ->
    ~ holds (sized_trait se) (item_at se s l)) ->
  forall k j x y, k <> j ->
    nth_error (generated_impls se ++ lib_impls se) k = Some x ->
    nth_error (generated_impls se ++ lib_impls se) j = Some y -> ~ conflict se fails x y.
Proof. exact c26_alone'. Qed.
Print Assumptions C26_no_conflict.
(** [impl<'a, T> Drop for Foo<'a, T> where T: Tr], next to the default expansion;
    and the expansion alone. *)
Example C26_user_drop : let se := prog (foo t_default) [impl_all "Drop"] in
  options (attrs_of (se_item se)) (o_of t_default) /\ rust se /\ legal se /\ uncaptured se /\ solution se (least se) /\
  headers_ok se (least se) /\ refuter se (least se) (can_tell se (least se)) /\
  sized_at se (at_ phantom_pinned_) lt_ /\
  applies se (least se) (outer_env, impl_all "Drop") (drop_trait se) (item_at se (at_ phantom_pinned_) lt_).
Proof.
  split; [apply foo_options; cbn; tauto|]. split; [apply foo_rust; [cbn; tauto|intros x [<-|[]]; cbn; tauto]|].
  split; [apply foo_legal|]. split; [apply foo_uncaptured; cbn; tauto|]. split; [apply least_solution|].
  split; [apply foo_headers; intros x [<-|[]]; cbn; tauto|]. split; [apply can_tell_refuter|]. split; [apply foo_sized|].
  apply (all_applies t_default [impl_all "Drop"] "Drop"); [cbn; tauto|]. apply both_hold. right. reflexivity.
Qed.
Example C26_no_user_impls : let se := prog (foo t_unsafe) [impl_u8 "UnsafeUnpin"] in
  compiles se (least se) (can_tell se (least se)) /\ visible se /\ refutes_drop se (least se) (can_tell se (least se)) /\
  refutes_sized se (least se) (can_tell se (least se)) /\
  (forall x s l, In x (se_impls se) -> ~ applies se (least se) x (drop_trait se) (item_at se s l)) /\
  length (generated_impls se ++ lib_impls se) = 7.
Proof.
  split; [exact foo_unsafe_compiles|]. split; [apply un_visible, foo_uncaptured; cbn; tauto|].
  split; [apply can_tell_drop|]. split; [apply can_tell_sized|]. split; [|vm_compute; reflexivity].
  intros x s l [<-|[]] (s' & l' & Hm & _). no_match Hm.
Qed.
(** A program in which [::pin_project] is another crate, with a trait [Drop] of its own
    (tests/ui/pin_project/override-priv-mod.rs): the trait that counts is still the real one. *)
Example C26_renamed_crate : let se := own_prog in
  den_path (U := own_terms) own_env (Path true [seg1 "pin_project"; seg1 "__private"; seg1 "Drop"]) = own_drop /\ own_drop <> drop_trait se /\
  options (attrs_of (se_item se)) (o_of []) /\ rust se /\ legal se /\ uncaptured se /\ solution se (least se) /\
  headers_ok se (least se) /\ refuter se (least se) (can_tell se (least se)) /\ sized_at se (fun _ => XNever) (fun x => x) /\
  applies se (least se) (own_env, own_impl) (drop_trait se) (item_at se (fun _ => XNever) (fun x => x)).
Proof.
  split; [reflexivity|]. split; [discriminate|]. split; [exact own_options|]. split; [exact own_rust|]. split; [exact own_legal|].
  split; [exact own_uncaptured|]. split; [apply least_solution|]. split; [apply own_headers|]. split; [apply can_tell_refuter|].
  split; [intros fs f _ _; reflexivity|apply own_applies].
Qed.

(** ** C27 *)
Theorem C27_exactly_one : forall se holds fails a s l,
  options (attrs_of (se_item se)) a -> legal se -> uncaptured se -> compiles se holds fails ->
  ar_pinned_drop a = true -> where_holds se holds s l ->
  exists k x, nth_error (se_impls se) k = Some x /\ applies se holds x (pinned_drop se) (item_at se s l) /\
    forall k' x', nth_error (se_impls se) k' = Some x' -> applies se holds x' (pinned_drop se) (item_at se s l) -> k' = k.
Proof. exact c27_given. Qed.
Print Assumptions C27_exactly_one.

Theorem C27_rejected : forall se holds fails a x b,
  options (attrs_of (se_item se)) a -> rust se -> legal se -> uncaptured se ->
  solution se holds -> headers_ok se holds -> refuter se holds fails ->
  ar_pinned_drop a = false ->
  In x (se_impls se) -> applies se holds x (pinned_drop se) (u_inst (se_univ se) (se_def se) b) ->
  ~ coherent se fails.
Proof. exact c27_not_given. Qed.
Print Assumptions C27_rejected.
(** [impl<'a, T> PinnedDrop for Foo<'a, T> where T: Tr], with and without the option. *)
Example C27_given_ex : let se := prog (foo t_drop) [impl_all "PinnedDrop"] in
  options (attrs_of (se_item se)) (o_of t_drop) /\ ar_pinned_drop (o_of t_drop) = true /\ legal se /\ uncaptured se /\
  compiles se (least se) (can_tell se (least se)) /\ where_holds se (least se) (at_ phantom_pinned_) lt_.
Proof.
  split; [apply foo_options; cbn; tauto|]. split; [reflexivity|]. split; [apply foo_legal|]. split; [apply foo_uncaptured; cbn; tauto|].
  split; [exact foo_drop_compiles|]. apply foo_where, both_hold. right. reflexivity.
Qed.
Example C27_not_given_ex : let se := prog (foo t_negative) [impl_all "PinnedDrop"] in
  options (attrs_of (se_item se)) (o_of t_negative) /\ ar_pinned_drop (o_of t_negative) = false /\
  rust se /\ legal se /\ uncaptured se /\ solution se (least se) /\
  headers_ok se (least se) /\ refuter se (least se) (can_tell se (least se)) /\
  applies se (least se) (outer_env, impl_all "PinnedDrop") (pinned_drop se) (item_at se (at_ (usr "u8")) lt_).
Proof.
  split; [apply foo_options; cbn; tauto|]. split; [reflexivity|]. split; [apply foo_rust; [cbn; tauto|intros x [<-|[]]; cbn; tauto]|].
  split; [apply foo_legal|]. split; [apply foo_uncaptured; cbn; tauto|]. split; [apply least_solution|].
  split; [apply foo_headers; intros x [<-|[]]; cbn; tauto|]. split; [apply can_tell_refuter|].
  apply (all_applies t_negative [impl_all "PinnedDrop"] "PinnedDrop"); [cbn; tauto|]. apply both_hold. left. reflexivity.
Qed.

(** ** C28 *)
Theorem C28_default : forall se holds fails a s l,
  options (attrs_of (se_item se)) a -> legal se -> uncaptured se -> compiles se holds fails ->
  ar_unpin a = UDefault ->
  (holds (unpin se) (item_at se s l) <->
   where_holds se holds s l /\ forall f, pinned_field se f -> holds (unpin se) (type_at se s l f)).
Proof. exact c28. Qed.
Print Assumptions C28_default.
(** [Foo<'static, u8>] is [Unpin] although [b: PhantomPinned] is not;
    [Foo<'static, PhantomPinned>] is not, although its where clause holds. *)
Example C28_ex : let se := prog (foo t_default) [] in
  options (attrs_of (se_item se)) (o_of t_default) /\ ar_unpin (o_of t_default) = UDefault /\ legal se /\ uncaptured se /\
  compiles se (least se) (can_tell se (least se)) /\
  least se (unpin se) (item_at se (at_ (usr "u8")) lt_) /\
  where_holds se (least se) (at_ phantom_pinned_) lt_ /\ ~ least se (unpin se) (item_at se (at_ phantom_pinned_) lt_).
Proof.
  assert (Ho : options (attrs_of (foo t_default)) (o_of t_default)) by (apply foo_options; cbn; tauto).
  assert (Hu : uncaptured (prog (foo t_default) [])) by (apply foo_uncaptured; cbn; tauto).
  assert (Hc := foo_compiles t_default (or_introl eq_refl)). cbn zeta.
  split; [exact Ho|]. split; [reflexivity|]. split; [apply foo_legal|]. split; [exact Hu|]. split; [exact Hc|]. split; [|split].
  - apply (c28 (prog (foo t_default) []) _ _ _ _ _ Ho (foo_legal _ _) Hu Hc eq_refl). split.
    + apply foo_where, both_hold. left. reflexivity.
    + intros f (fs & [<-|[]] & Hf & Hp). cbn in Hf. destruct Hf as [<-|[<-|[<-|[]]]].
      * apply u8_unpin.
      * cbn in Hp. destruct Hp as (x & [] & _).
      * apply ref_unpin.
  - apply foo_where, both_hold. right. reflexivity.
  - intros H. apply (c28 (prog (foo t_default) []) _ _ _ _ _ Ho (foo_legal _ _) Hu Hc eq_refl) in H. destruct H as [_ H].
    apply (pinned_not_unpin _ _ _ (co_rust _ _ _ Hc) (un_visible _ Hu) Ho).
    specialize (H (mkField [pin_mark] VInherited (Some (I "a")) (tid "T"))). apply H.
    eexists. split; [left; reflexivity|]. split; [left; reflexivity|]. exists pin_mark. split; [left; reflexivity|]. vm_compute. auto.
Qed.

(** ** C29 *)
Theorem C29_never : forall se holds fails a s l,
  options (attrs_of (se_item se)) a -> legal se -> uncaptured se -> compiles se holds fails ->
  ar_unpin a = UNegative -> ~ holds (unpin se) (item_at se s l).
Proof. exact c29. Qed.
Print Assumptions C29_never.
Example C29_ex : let se := prog (foo t_negative) [] in
  options (attrs_of (se_item se)) (o_of t_negative) /\ ar_unpin (o_of t_negative) = UNegative /\ legal se /\ uncaptured se /\
  compiles se (least se) (can_tell se (least se)) /\ where_holds se (least se) (at_ (usr "u8")) lt_.
Proof.
  split; [apply foo_options; cbn; tauto|]. split; [reflexivity|]. split; [apply foo_legal|]. split; [apply foo_uncaptured; cbn; tauto|].
  split; [apply foo_compiles; cbn; tauto|]. apply foo_where, both_hold. left. reflexivity.
Qed.

(** ** C30 *)
Theorem C30_unsafe : forall se holds fails a s l,
  options (attrs_of (se_item se)) a -> legal se -> uncaptured se -> compiles se holds fails ->
  ar_unpin a = UUnsafe ->
  (holds (unpin se) (item_at se s l) <->
   where_holds se holds s l /\
   exists x, In x (se_impls se) /\ applies se holds x (unsafe_unpin se) (item_at se s l)).
Proof. exact c30. Qed.
Print Assumptions C30_unsafe.
(** With [unsafe impl<'a> UnsafeUnpin for Foo<'a, u8>]. *)
Example C30_ex : let se := prog (foo t_unsafe) [impl_u8 "UnsafeUnpin"] in
  options (attrs_of (se_item se)) (o_of t_unsafe) /\ ar_unpin (o_of t_unsafe) = UUnsafe /\ legal se /\ uncaptured se /\
  compiles se (least se) (can_tell se (least se)) /\
  least se (unpin se) (item_at se (at_ (usr "u8")) lt_) /\
  where_holds se (least se) (at_ phantom_pinned_) lt_ /\ ~ least se (unpin se) (item_at se (at_ phantom_pinned_) lt_).
Proof.
  assert (Ho : options (attrs_of (foo t_unsafe)) (o_of t_unsafe)) by (apply foo_options; cbn; tauto).
  assert (Hu : uncaptured (prog (foo t_unsafe) [impl_u8 "UnsafeUnpin"])) by (apply foo_uncaptured; cbn; tauto).
  pose proof foo_unsafe_compiles as Hc. cbn zeta in Hc |- *.
  split; [exact Ho|]. split; [reflexivity|]. split; [apply foo_legal|]. split; [exact Hu|]. split; [exact Hc|]. split; [|split].
  - apply (c30 (prog (foo t_unsafe) [impl_u8 "UnsafeUnpin"]) _ _ _ _ _ Ho (foo_legal _ _) Hu Hc eq_refl). split.
    + apply foo_where, both_hold. left. reflexivity.
    + exists (outer_env, impl_u8 "UnsafeUnpin"). split; [left; reflexivity|]. apply u8_applies; [cbn; tauto|reflexivity].
  - apply foo_where, both_hold. right. reflexivity.
  - intros H. apply (c30 (prog (foo t_unsafe) [impl_u8 "UnsafeUnpin"]) _ _ _ _ _ Ho (foo_legal _ _) Hu Hc eq_refl) in H.
    destruct H as (_ & x & [<-|[]] & s & l & [H _] & _). vm_compute in H. discriminate.
Qed.

(** ** C31 *)
Theorem C31_same_impls : forall it1 it2 e1 e2 a,
  parse_derive it1 = Ok e1 -> parse_derive it2 = Ok e2 ->
  options (attrs_of it1) a -> options (attrs_of it2) a ->
  ordered (g_params (generics_of it1)) ->
  name_of it1 = name_of it2 -> generics_of it1 = generics_of it2 -> pinned_tys_of it1 = pinned_tys_of it2 ->
  (forall im, i_trait im = Some (support ["__private"; "Unpin"]) \/ i_trait im = Some (support ["UnsafeUnpin"]) ->
    (In (OImpl im) (scoped e1) <-> In (OImpl im) (scoped e2))) /\
  (forall g fs, (exists v, In (OStruct v (helper_name (name_of it1)) g fs) (scoped e1)) <->
                (exists v, In (OStruct v (helper_name (name_of it1)) g fs) (scoped e2))).
Proof. exact c31_same. Qed.
Print Assumptions C31_same_impls.

Theorem C31_unused_parameters : forall se holds fails a s l s' l',
  options (attrs_of (se_item se)) a -> legal se -> uncaptured se -> compiles se holds fails ->
  ar_unpin a = UDefault -> where_holds se holds s l -> where_holds se holds s' l' ->
  (forall f, pinned_field se f ->
    (forall m ts, ~ In (NMacro m ts) (nodes_ty (f_ty f))) /\ ~ looks_up (nodes_ty (f_ty f)) "Self" /\
    (forall x, looks_up (nodes_ty (f_ty f)) x -> In x (param_names (item_params se)) -> s x = s' x) /\
    (forall x, In (NLt x) (nodes_ty (f_ty f)) -> In x (param_lts (item_params se)) -> l x = l' x)) ->
  (holds (unpin se) (item_at se s l) <-> holds (unpin se) (item_at se s' l')).
Proof. exact c31_unused. Qed.
Print Assumptions C31_unused_parameters.

Theorem C31_changed_fields : forall se it e other holds fails holds' fails' a a' s l,
  let se' := with_item se it e other in
  options (attrs_of (se_item se)) a -> legal se -> uncaptured se -> compiles se holds fails -> ar_unpin a = UDefault ->
  options (attrs_of it) a' -> legal se' -> uncaptured se' -> compiles se' holds' fails' -> ar_unpin a' = UDefault ->
  (forall t, In t (pinned_tys_of (se_item se)) <-> In t (pinned_tys_of it)) ->
  (where_holds se holds s l <-> where_holds se' holds' s l) ->
  (forall t, In t (pinned_tys_of it) ->
    (holds (unpin se) (den_ty (place se s l) t) <-> holds' (unpin se) (den_ty (place se' s l) t))) ->
  (holds (unpin se) (item_at se s l) <-> holds' (unpin se) (item_at se' s l)).
Proof. exact c31_changed. Qed.
Print Assumptions C31_changed_fields.
(** [Foo<T, U> { #[pin] a: T, b: U }] and [Foo<T, U> { #[pin] a: T, b: PhantomPinned }]. *)
Example C31_ex :
  options (attrs_of two_u) two_opts /\ options (attrs_of two_p) two_opts /\ ar_unpin two_opts = UDefault /\
  compiles (prog two_u []) (least (prog two_u [])) (can_tell (prog two_u []) (least (prog two_u []))) /\
  compiles (prog two_p []) (least (prog two_p [])) (can_tell (prog two_p []) (least (prog two_p []))) /\
  prog two_p [] = with_item (prog two_u []) two_p (se_exp (prog two_p [])) (se_other (prog two_p [])) /\
  legal (prog two_u []) /\ uncaptured (prog two_u []) /\ legal (prog two_p []) /\ uncaptured (prog two_p []) /\
  pinned_tys_of two_u = pinned_tys_of two_p /\ two_u <> two_p /\
  least (prog two_u []) (unpin (prog two_u [])) (item_at (prog two_u []) (s_of (usr "u8") phantom_pinned_) lt_) /\
  least (prog two_p []) (unpin (prog two_p [])) (item_at (prog two_p []) (s_of (usr "u8") phantom_pinned_) lt_).
Proof.
  assert (A : In two_u [two_u; two_p]) by (cbn; tauto). assert (B : In two_p [two_u; two_p]) by (cbn; tauto).
  split; [exact (two_options _ A)|]. split; [exact (two_options _ B)|]. split; [reflexivity|].
  split; [exact (two_compiles _ A)|]. split; [exact (two_compiles _ B)|]. split; [reflexivity|].
  split; [exact (two_legal _ A)|]. split; [exact (two_uncaptured _ A)|]. split; [exact (two_legal _ B)|]. split; [exact (two_uncaptured _ B)|].
  split; [reflexivity|]. split; [discriminate|].
  assert (X : forall it, In it [two_u; two_p] ->
    least (prog it []) (unpin (prog it [])) (item_at (prog it []) (s_of (usr "u8") phantom_pinned_) lt_)).
  { intros it H. apply (c28 (prog it []) _ _ _ _ _ (two_options it H) (two_legal it H) (two_uncaptured it H) (two_compiles it H) eq_refl).
    split; [apply two_where; [exact H|apply sized_holds, XS_bare; reflexivity|apply sized_holds, XS_bare; reflexivity]|]. intros f (fs & Hfs & Hf & Hp).
    destruct H as [<-|[<-|[]]]; destruct Hfs as [<-|[]]; cbn in Hf; destruct Hf as [<-|[<-|[]]];
      try apply u8_unpin; destruct Hp as (x & [] & _). }
  split; apply X; assumption.
Qed.
(** The parameter [U] is not used by pinned fields. *)
Example C31_unused_ex : forall f, pinned_field (prog two_u []) f ->
  (forall m ts, ~ In (NMacro m ts) (nodes_ty (f_ty f))) /\ ~ looks_up (nodes_ty (f_ty f)) "Self" /\
  (forall x, looks_up (nodes_ty (f_ty f)) x -> In x (param_names (item_params (prog two_u []))) ->
    s_of (usr "u8") (usr "u8") x = s_of (usr "u8") phantom_pinned_ x).
Proof.
  intros f (fs & [<-|[]] & Hf & Hp). cbn in Hf. destruct Hf as [<-|[<-|[]]]; [|destruct Hp as (x & [] & _)].
  cbn. repeat split.
  - intros m ts [H|[]]. discriminate.
  - intros (q & i & r & [H|[]] & _ & Hn). injection H as <- <- <-. discriminate.
  - intros x (q & i & r & [H|[]] & _ & <-) _. injection H as <- <- <-. reflexivity.
Qed.

(** ** C32 *)
Theorem C32_unpin : forall se holds fails a x b,
  options (attrs_of (se_item se)) a -> rust se -> legal se -> uncaptured se ->
  headers_ok se holds -> refuter se holds fails ->
  In x (se_impls se) -> applies se holds x (unpin se) (u_inst (se_univ se) (se_def se) b) ->
  ~ coherent se fails.
Proof. exact c32_unpin. Qed.
Print Assumptions C32_unpin.

Theorem C32_unsafe_unpin : forall se holds fails a x b,
  options (attrs_of (se_item se)) a -> rust se -> legal se -> uncaptured se ->
  headers_ok se holds -> refuter se holds fails ->
  ar_unpin a <> UUnsafe ->
  In x (se_impls se) -> applies se holds x (unsafe_unpin se) (u_inst (se_univ se) (se_def se) b) ->
  ~ coherent se fails.
Proof. exact c32_unsafe. Qed.
Print Assumptions C32_unsafe_unpin.
Example C32_ex : let se := prog (foo t_default) [impl_u8 "Unpin"; impl_u8 "UnsafeUnpin"] in
  options (attrs_of (se_item se)) (o_of t_default) /\ ar_unpin (o_of t_default) = UDefault /\
  rust se /\ legal se /\ uncaptured se /\ headers_ok se (least se) /\ refuter se (least se) (can_tell se (least se)) /\
  applies se (least se) (outer_env, impl_u8 "Unpin") (unpin se) (item_at se (at_ (usr "u8")) lt_) /\
  applies se (least se) (outer_env, impl_u8 "UnsafeUnpin") (unsafe_unpin se) (item_at se (at_ (usr "u8")) lt_).
Proof.
  split; [apply foo_options; cbn; tauto|]. split; [reflexivity|].
  split; [apply foo_rust; [cbn; tauto|intros x [<-|[<-|[]]]; cbn; tauto]|].
  split; [apply foo_legal|]. split; [apply foo_uncaptured; cbn; tauto|].
  split; [apply foo_headers; intros x [<-|[<-|[]]]; cbn; tauto|]. split; [apply can_tell_refuter|].
  split; apply u8_applies; (reflexivity || (cbn; tauto)).
Qed.

(** ** C33 *)
Theorem C33_same_types_partial : forall se a,
  options (attrs_of (se_item se)) a -> rust se -> legal se -> uncaptured se -> ar_unpin a = UDefault ->
  exists vv gg fs, In (OStruct vv (helper_name (name_of (se_item se))) gg fs) (scoped (se_exp se)) /\
  forall s l,
    (forall f, pinned_field se f -> exists h, In h (fields_list fs) /\
       den_ty (in_helper se gg s l) (f_ty h) = type_at se s l f) /\
    (forall h, In h (fields_list fs) ->
       (exists f, pinned_field se f /\ den_ty (in_helper se gg s l) (f_ty h) = type_at se s l f) \/
       (exists p d, den_ty (in_helper se gg s l) (f_ty h) = u_inst (se_univ se) (se_lib se "AlwaysUnpin") [DLt p; DTy d]) \/
       (exists lt m d, den_ty (in_helper se gg s l) (f_ty h) = u_ref (se_univ se) lt m d)).
Proof. exact c33. Qed.
Print Assumptions C33_same_types_partial.
(** Missing: names that the expansion hides.  The full statement fails: *)
Theorem C33_refuted : exists se holds fails a,
  options (attrs_of (se_item se)) a /\ ar_unpin a = UDefault /\ legal se /\ visible se /\ compiles se holds fails /\
  exists f s l, pinned_field se f /\
  forall vv gg fs h, In (OStruct vv (helper_name (name_of (se_item se))) gg fs) (scoped (se_exp se)) ->
    In h (fields_list fs) -> den_ty (in_helper se gg s l) (f_ty h) <> type_at se s l f.
Proof. exact c33_refuted. Qed.
Print Assumptions C33_refuted.
Example C33_ex : let se := prog (foo t_default) [] in
  options (attrs_of (se_item se)) (o_of t_default) /\ ar_unpin (o_of t_default) = UDefault /\
  rust se /\ legal se /\ uncaptured se /\ exists f, pinned_field se f.
Proof.
  split; [apply foo_options; cbn; tauto|]. split; [reflexivity|]. split; [apply foo_rust; [cbn; tauto|intros x []]|].
  split; [apply foo_legal|]. split; [apply foo_uncaptured; cbn; tauto|].
  exists (mkField [pin_mark] VInherited (Some (I "a")) (tid "T")).
  eexists. split; [left; reflexivity|]. split; [left; reflexivity|]. exists pin_mark. split; [left; reflexivity|]. vm_compute. auto.
Qed.

(** ** C43 *)
Theorem C43_safe_partial : forall se holds fails a s l f,
  options (attrs_of (se_item se)) a -> legal se -> uncaptured se -> compiles se holds fails ->
  (forall x, In x (se_impls se) -> ~ applies se holds x (unsafe_unpin se) (item_at se s l)) ->
  holds (unpin se) (item_at se s l) -> pinned_field se f -> holds (unpin se) (type_at se s l f).
Proof. exact c43. Qed.
Print Assumptions C43_safe_partial.
(** Missing: names that the expansion hides.  The full statement fails for a
    pinned field whose type is in a module called [_pin_project]: *)
Theorem C43_refuted : exists se holds fails a s l f,
  options (attrs_of (se_item se)) a /\ legal se /\ visible se /\ compiles se holds fails /\ se_impls se = [] /\
  holds (unpin se) (item_at se s l) /\ pinned_field se f /\ ~ holds (unpin se) (type_at se s l f).
Proof. exact c43_refuted. Qed.
Print Assumptions C43_refuted.
(** The hypotheses are those of [C28_ex], where the item is [Unpin]. *)
Example C43_ex : let se := prog (foo t_default) [] in
  (forall x, In x (se_impls se) -> ~ applies se (least se) x (unsafe_unpin se) (item_at se (at_ (usr "u8")) lt_)) /\
  least se (unpin se) (item_at se (at_ (usr "u8")) lt_).
Proof. split; [intros x []|]. apply C28_ex. Qed.

(** ** C48 *)
Theorem C48_other_impls : forall se holds fails a,
  options (attrs_of (se_item se)) a -> rust se -> visible se -> traits_private se ->
  solution se holds -> refutes_drop se holds fails ->
  (forall x s l, In x (se_impls se) -> ~ applies se holds x (drop_trait se) (item_at se s l)) ->
  (forall x s l tr b, In x (se_impls se) -> In tr (implemented se a) ->
    ~ matches se (fst x) (snd x) s l tr (u_inst (se_univ se) (se_def se) b)) ->
  (forall i j x y, i <> j -> nth_error (se_impls se) i = Some x -> nth_error (se_impls se) j = Some y ->
    ~ conflict se fails x y) ->
  coherent se fails.
Proof. exact c48. Qed.
Print Assumptions C48_other_impls.
(** With [UnsafeUnpin]: impls of [UnsafeUnpin] and of the user's trait [Tr] for
    the item. *)
Example C48_ex : let se := prog (foo t_unsafe) [impl_u8 "UnsafeUnpin"; impl_all "Tr"] in
  options (attrs_of (se_item se)) (o_of t_unsafe) /\ rust se /\ visible se /\ traits_private se /\
  solution se (least se) /\ refutes_drop se (least se) (can_tell se (least se)) /\
  (forall x s l, In x (se_impls se) -> ~ applies se (least se) x (drop_trait se) (item_at se s l)) /\
  (forall x s l tr b, In x (se_impls se) -> In tr (implemented se (o_of t_unsafe)) ->
    ~ matches se (fst x) (snd x) s l tr (u_inst (se_univ se) (se_def se) b)) /\
  (forall i j x y, i <> j -> nth_error (se_impls se) i = Some x -> nth_error (se_impls se) j = Some y ->
    ~ conflict se (can_tell se (least se)) x y).
Proof.
  split; [apply foo_options; cbn; tauto|]. split; [exact foo_tr_rust|].
  split; [apply un_visible, foo_uncaptured; cbn; tauto|]. split; [|split; [apply least_solution|]; split; [apply can_tell_drop|]; split; [|split]].
  - intros E im s l x b t [H|[H|[]]]; injection H as <- <-; intros Hm; no_match Hm.
  - intros x s l [<-|[<-|[]]] (s' & l' & Hm & _); no_match Hm.
  - intros x s l tr b [<-|[<-|[]]] [<-|[<-|[]]] Hm; no_match Hm.
  - intros i j x y Hij Hx Hy (s1 & l1 & s2 & l2 & tr & t & H1 & H2 & _).
    destruct i as [|[|i]]; [| |destruct i; discriminate]; (destruct j as [|[|j]]; [| |destruct j; discriminate]);
      try congruence; cbn in Hx, Hy; injection Hx as <-; injection Hy as <-; no_match H1; no_match H2.
Qed.
