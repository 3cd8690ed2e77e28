(** Vocabulary for C70: the same item with one more field. *)
From Coq Require Import String List Bool.
From Verif Require Import Base Syntax ModelArgs ModelUtils ModelDerive ModelMeaning ModelTraits
  SpecArgs SpecDerive SpecLifetime SpecExpand SpecRun SpecMeaning SpecTraits.
Import ListNotations.
Open Scope string_scope.
Open Scope list_scope.

(** [it'] is [it] with the field [f] added, somewhere in the struct or in one of
    the variants.  The attributes may differ. *)
Definition one_more (f : field) (it it' : item) : Prop :=
  name_of it' = name_of it /\ generics_of it' = generics_of it /\
  exists before fs fs' after l1 l2,
    fields_of it = before ++ fs :: after /\ fields_of it' = before ++ fs' :: after /\
    fields_list fs = l1 ++ l2 /\ fields_list fs' = l1 ++ f :: l2.

(** The type [core::marker::PhantomPinned]; the support crate's is a re-export
    of it (src/lib.rs:190). *)
Definition phantom_pinned_type (se : setting) : D (se_univ se) :=
  u_inst (se_univ se) (se_lib se "PhantomPinned") [].
