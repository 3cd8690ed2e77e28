(** Vocabulary for the property about the instances that impls are for. *)
From Coq Require Import String List Bool.
From Verif Require Import Base Syntax ModelUtils ModelDerive ModelMeaning ModelTraits.
From Verif Require Import SpecExpand SpecTraits.
Import ListNotations.
Open Scope string_scope.
Open Scope list_scope.

(** The impl of the methods, and the impls that have to do with destructors. *)
Definition for_every_instance (im : impl) : Prop :=
  i_trait im = None \/ i_trait im = Some (support ["__private"; "Drop"]) \/
  i_trait im = Some (support ["__private"; "PinnedDrop"]).

Section Instances.
  Variable se : setting.
  Notation T := (D (se_univ se)).
  (** With its parameters instantiated the impl is for the type [t], and what it
      asks of them holds. *)
  Definition is_for (im : impl) (holds : T -> T -> Prop) (t : T) (s : string -> T) (l : string -> LT (se_univ se)) : Prop :=
    den_ty (header_env se (inner_env se) (i_generics im) s l) (i_self im) = t /\
    generics_sat se holds (impl_env se (inner_env se) im s l) (i_generics im).
  (** Rust's rule for impls of [Drop] (E0366, E0367): whatever traits mean, the
      impl is for every instance whose own bounds hold. *)
  Definition unspecialised (im : impl) : Prop :=
    forall holds s l, where_holds se holds s l -> exists s' l', is_for im holds (item_at se s l) s' l'.
  (** And for nothing else. *)
  Definition no_more_general (im : impl) : Prop :=
    forall holds s' l' t, is_for im holds t s' l' -> exists s l, t = item_at se s l /\ where_holds se holds s l.
End Instances.
