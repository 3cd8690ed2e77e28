(** A public struct with a private type in a private field, for C57. *)
From Coq Require Import String Ascii List Bool.
From Verif Require Import Base Syntax ModelArgs ModelUtils ModelAttribute ModelDerive.
From Verif Require Import SpecArgs SpecDerive SpecExpand SpecVis SpecRun SpecMeaning SpecTraits SpecScope SpecReach Examples.
Import ListNotations.
Open Scope string_scope.
Open Scope list_scope.

(** [pub struct Foo<T: Tr> { #[pin] pub a: T, v b: Hidden }] *)
Definition hiding (v : vis) : item :=
  ItStruct (mkStruct [pin_attr args_struct] VPub (I "Foo") (mkGenerics [PTy (I "T") [bnd "Tr"] None] None)
    (FNamed [mkField [pin_mark] VPub (Some (I "a")) (tid "T"); mkField [pin_mark] v (Some (I "b")) (tid "Hidden")])).
(** [Hidden] is private in [crate::m], where the struct stands. *)
Definition module_ex : module := [I "m"].
Definition user_ex (lead : bool) (p : list ident) (w : viewer) : Prop :=
  p = [I "Hidden"] -> exists x, w = Inside x /\ within module_ex x.
