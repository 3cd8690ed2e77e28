(** Proofs for C70. *)
From Coq Require Import String List Bool.
From Verif Require Import Base Syntax ModelArgs ModelUtils ModelDerive ModelMeaning ModelTraits.
From Verif Require Import SpecArgs SpecDerive SpecLifetime SpecExpand SpecRun SpecMeaning SpecTraits SpecPhantom.
From Verif Require Import ProofsDerive ProofsRun ProofsTraitsForm ProofsTraits ProofsTraitsMain ProofsTraitsProps.
Import ListNotations.
Open Scope string_scope.
Open Scope list_scope.

Lemma phantom_not_unpin se holds fails a : options (attrs_of (se_item se)) a -> uncaptured se -> compiles se holds fails ->
  ~ holds (unpin se) (phantom_pinned_type se).
Proof.
  intros Ha Hu Hc. pose proof (co_rust _ _ _ Hc) as Hr.
  form se Ha Hr pin v front Hpin Hfront Hform.
  exact (phantom_pinned se Hr a pin v front Hpin Hfront Hform (un_visible _ Hu) holds (co_solution _ _ _ Hc) []).
Qed.

Lemma c70_never se holds fails a s l f :
  options (attrs_of (se_item se)) a -> legal se -> uncaptured se -> compiles se holds fails -> ar_unpin a = UDefault ->
  pinned_field se f -> type_at se s l f = phantom_pinned_type se ->
  ~ holds (unpin se) (item_at se s l).
Proof.
  intros Ha Hl Hu Hc Ea Hf Ht H. apply (c28 se holds fails a s l Ha Hl Hu Hc Ea) in H. destruct H as [_ H].
  specialize (H f Hf). rewrite Ht in H. exact (phantom_not_unpin se holds fails a Ha Hu Hc H).
Qed.

Lemma one_more_in f it it' : one_more f it it' -> exists fs, In fs (fields_of it') /\ In f (fields_list fs).
Proof.
  intros (_ & _ & before & fs & fs' & after & l1 & l2 & _ & E & _ & El). exists fs'. rewrite E, El.
  split; apply in_or_app; right; left; reflexivity.
Qed.

Lemma c70_equivalent se it e other holds fails holds' fails' a a' f s l :
  let se' := with_item se it e other in
  options (attrs_of (se_item se)) a -> legal se -> uncaptured se -> compiles se holds fails -> ar_unpin a = UNegative ->
  options (attrs_of it) a' -> legal se' -> uncaptured se' -> compiles se' holds' fails' -> ar_unpin a' = UDefault ->
  one_more f (se_item se) it -> pinned f -> type_at se' s l f = phantom_pinned_type se ->
  ~ holds (unpin se) (item_at se s l) /\ ~ holds' (unpin se) (item_at se' s l).
Proof.
  cbn zeta. intros Ha Hl Hu Hc Ea Ha' Hl' Hu' Hc' Ea' Hm Hp Ht. split.
  - exact (c29 se holds fails a s l Ha Hl Hu Hc Ea).
  - destruct (one_more_in _ _ _ Hm) as (fs & Hfs & Hf).
    refine (c70_never (with_item se it e other) holds' fails' a' s l f Ha' Hl' Hu' Hc' Ea' _ Ht).
    exists fs. split; [exact Hfs|]. split; [exact Hf|exact Hp].
Qed.

Lemma one_more_pinned f it it' : one_more f it it' -> ~ pinned f -> pinned_tys_of it' = pinned_tys_of it.
Proof.
  intros (_ & _ & before & fs & fs' & after & l1 & l2 & E & E' & El & El') Hp. unfold pinned_tys_of.
  rewrite E, E', !flat_map_app. cbn [flat_map]. rewrite El, El', !filter_app, !map_app. cbn [filter].
  destruct (is_pinned f) eqn:Hb; [|reflexivity]. exfalso. apply Hp. apply pin_b_iff. rewrite <- is_pinned_pin_b. exact Hb.
Qed.

Lemma c70_no_effect se it e other holds fails holds' fails' a a' f s l :
  let se' := with_item se it e other in
  options (attrs_of (se_item se)) a -> legal se -> uncaptured se -> compiles se holds fails -> ar_unpin a = UDefault ->
  options (attrs_of it) a' -> legal se' -> uncaptured se' -> compiles se' holds' fails' -> ar_unpin a' = UDefault ->
  one_more f (se_item se) it -> ~ pinned f ->
  (where_holds se holds s l <-> where_holds se' holds' s l) ->
  (forall f', pinned_field se f' -> (holds (unpin se) (type_at se s l f') <-> holds' (unpin se) (type_at se s l f'))) ->
  (holds (unpin se) (item_at se s l) <-> holds' (unpin se) (item_at se' s l)).
Proof.
  cbn zeta. intros Ha Hl Hu Hc Ea Ha' Hl' Hu' Hc' Ea' Hm Hp Hw Hag.
  pose proof (one_more_pinned _ _ _ Hm Hp) as Ht.
  assert (Hpl : place (with_item se it e other) s l = place se s l).
  { destruct Hm as (_ & G & _). unfold place, item_at, item_params. cbn. rewrite G. reflexivity. }
  refine (c31_changed se it e other holds fails holds' fails' a a' s l Ha Hl Hu Hc Ea Ha' Hl' Hu' Hc' Ea' _ Hw _).
  - intros t. rewrite Ht. reflexivity.
  - intros t Hin. rewrite Ht in Hin. unfold pinned_tys_of in Hin. apply in_flat_map in Hin. destruct Hin as (fs & Hfs & Hin).
    apply in_map_iff in Hin. destruct Hin as (f' & <- & Hin). apply filter_In in Hin. destruct Hin as [Hin Hb].
    rewrite Hpl. apply Hag. exists fs. split; [exact Hfs|]. split; [exact Hin|]. apply pin_b_iff. rewrite <- is_pinned_pin_b. exact Hb.
Qed.
