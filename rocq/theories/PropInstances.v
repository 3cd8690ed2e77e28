(** C65: the generated impls are for exactly the instances of the type. *)
From Coq Require Import String Ascii List Bool.
From Verif Require Import Base Syntax ModelArgs ModelUtils ModelDerive ModelMeaning ModelTraits.
From Verif Require Import SpecArgs SpecDerive SpecExpand SpecRun SpecMeaning SpecTraits SpecInstances.
From Verif Require Import ProofsInstances Examples ExamplesTraits.
Import ListNotations.
Open Scope string_scope.
Open Scope list_scope.

Theorem C65_every : forall se a,
  options (attrs_of (se_item se)) a -> rust se -> legal se -> uncaptured se ->
  forall im, In (OImpl im) (all_items (se_exp se)) -> for_every_instance im -> unspecialised se im.
Proof. exact c65_every. Qed.
Print Assumptions C65_every.

Theorem C65_only : forall se a,
  options (attrs_of (se_item se)) a -> rust se -> legal se -> uncaptured se ->
  forall im, In (OImpl im) (all_items (se_exp se)) -> for_every_instance im -> no_more_general se im.
Proof. exact c65_only. Qed.
Print Assumptions C65_only.

(** [struct Foo<'a, T> where T: Tr] with [PinnedDrop]: the impl of the methods and the
    impl of [Drop]; and an instance whose bounds hold. *)
Example C65_example : let se := prog (foo t_drop) [impl_all "PinnedDrop"] in
  options (attrs_of (se_item se)) (o_of t_drop) /\ rust se /\ legal se /\ uncaptured se /\
  (exists im, In (OImpl im) (all_items (se_exp se)) /\ i_trait im = None) /\
  (exists im, In (OImpl im) (all_items (se_exp se)) /\ i_trait im = Some (support ["__private"; "Drop"])) /\
  where_holds se (least se) (at_ phantom_pinned_) lt_.
Proof.
  split; [apply foo_options; cbn; tauto|]. split; [apply foo_rust; [cbn; tauto|intros x [<-|[]]; cbn; tauto]|].
  split; [apply foo_legal|]. split; [apply foo_uncaptured; cbn; tauto|].
  split; [apply (impl_at _ 3); vm_compute; reflexivity|].
  split; [apply (impl_at _ 8); vm_compute; reflexivity|].
  apply foo_where, both_hold. right. reflexivity.
Qed.
