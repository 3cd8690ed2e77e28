(** C66: structural pinning goes through all levels. *)
From Coq Require Import String List Bool Arith.
From Verif Require Import Base Syntax ModelArgs ModelUtils ModelDerive ModelRun ModelHistory ModelUnpin ModelMeaning ModelTraits.
From Verif Require Import SpecArgs SpecDerive SpecExpand SpecRun SpecHistory SpecTraits SpecUnpin SpecNested.
From Verif Require Import ProofsNested ExamplesTraits ExamplesUnpin ExamplesNested.
Import ListNotations.
Open Scope list_scope.

(** As long as the innermost value has not been destroyed in its place, the memory of
    all the fields it is in is untouched. *)
Theorem C66_transitive : forall t evs o, enclosed t -> nested t evs o ->
  match o with
  | Some t' => Forall (undisturbed t) evs /\ Forall2 later t t' /\ Forall in_place t'
  | None => exists e1 e e2, evs = e1 ++ e :: e2 /\ Forall (undisturbed t) e1 /\ leaf_destroyed t e
  end.
Proof. exact c66. Qed.
Print Assumptions C66_transitive.

(** None of the values around a value that is not [Unpin] is [Unpin]. *)
Theorem C66_not_unpin : forall t lv r, enclosed t -> t = lv :: r -> ~ self_unpin lv.
Proof. exact c66_unpin. Qed.
Print Assumptions C66_not_unpin.

Example C66_example : enclosed [foo_level inner_foo foo_begun; foo_level phantom_pinned_ foo_begun] /\
  nested [foo_level inner_foo foo_begun; foo_level phantom_pinned_ foo_begun] [(1, EvDrop (PlField 0) 1); (0, EvDrop (PlField 0) 1)] None.
Proof. split; [exact foo_enclosed|exact foo_nested]. Qed.
