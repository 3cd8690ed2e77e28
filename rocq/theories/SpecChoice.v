(** Vocabulary: the combinations of options that a user may ask for. *)
From Coq Require Import String List Bool.
From Verif Require Import Base Syntax ModelArgs SpecArgs SpecDerive SpecExpand.
Import ListNotations.
Open Scope string_scope.
Open Scope list_scope.

(** [PinnedDrop] and [project_replace] exclude each other; the names are
    identifiers and different from each other.  Everything else is free. *)
Record allowed (a : args) : Prop := {
  al_drop : ar_pinned_drop a = true -> ar_project_replace a = PRNone;
  al_plain : forall k i, given_name k a = Some i -> plain_ident i;
  al_distinct : forall k k' i, given_name k a = Some i -> given_name k' a = Some i -> k = k'
}.
(** The attributes differ in one place only: the marker that carries the
    arguments. *)
Definition marker_changed (l l' : list attr) : Prop :=
  exists l1 x x' l2, l = l1 ++ x :: l2 /\ l' = l1 ++ x' :: l2 /\ attr_named x "pin" /\ attr_named x' "pin".
