(** Vocabulary for C54: histories of safe code where some types are [Unpin]. *)
From Coq Require Import String List Bool Arith.
From Verif Require Import Base Syntax ModelArgs ModelUtils ModelDerive ModelRun ModelHistory ModelUnpin ModelMeaning ModelTraits.
From Verif Require Import SpecArgs SpecDerive SpecExpand SpecRun SpecHistory SpecTraits.
Import ListNotations.
Open Scope list_scope.

(** The contract of [unsafe impl UnsafeUnpin for ..] (src/lib.rs:130-180): where
    such an impl of the user applies, the types of all pinned fields are [Unpin]. *)
Definition promise_kept (se : setting) (holds : D (se_univ se) -> D (se_univ se) -> Prop) : Prop :=
  forall x s l, In x (se_impls se) -> applies se holds x (unsafe_unpin se) (item_at se s l) ->
  forall f, pinned_field se f -> holds (unpin se) (type_at se s l f).

(** The histories of a pinned value whose type is the item at the instance
    [s], [l] of its generics; what safe code may do depends on which types are
    [Unpin]. *)
Definition safe_steps (se : setting) (holds : D (se_univ se) -> D (se_univ se) -> Prop)
    (s : string -> D (se_univ se)) (l : string -> LT (se_univ se)) (w : world) : hist -> hist -> Prop :=
  steps_unpin w (holds (unpin se) (item_at se s l)) (fun f => holds (unpin se) (type_at se s l f)).
Definition safe_history (se : setting) (holds : D (se_univ se) -> D (se_univ se) -> Prop)
    (s : string -> D (se_univ se)) (l : string -> LT (se_univ se)) (w : world) (h : hist) : Prop :=
  exists u vp fs, value_of (w_item w) u vp fs /\ NoDup (u_ids u) /\ safe_steps se holds s l w (begin u) h.
