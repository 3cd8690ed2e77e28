(** Vocabulary for the property that options do not influence each other. *)
From Coq Require Import String Ascii List Bool.
From Verif Require Import Base Syntax ModelArgs ModelUtils ModelDerive.
From Verif Require Import SpecArgs SpecDerive SpecExpand SpecRun.
Import ListNotations.
Open Scope string_scope.
Open Scope list_scope.

(** The same definition, with other attributes (and so other options). *)
Inductive same_item : item -> item -> Prop :=
| SI_struct l l' v i g fs : same_item (ItStruct (mkStruct l v i g fs)) (ItStruct (mkStruct l' v i g fs))
| SI_enum l l' v i g vs : same_item (ItEnum (mkEnum l v i g vs)) (ItEnum (mkEnum l' v i g vs)).

(** The generated item defines a type of this name. *)
Definition defines (o : oitem) (n : ident) : Prop :=
  match o with OStruct _ i _ _ | OEnum _ i _ _ => i = n | _ => False end.
(** Where the projected type is: next to the item if it was given a name. *)
Definition home (k : proj) (a : args) (e : expansion) : list oitem :=
  match given_name k a with Some _ => exposed e | None => scoped e end.
(** It is an impl of the trait, for whatever type. *)
Definition is_impl_of (tr : path) (o : oitem) : Prop :=
  match o with OImpl im => i_trait im = Some tr | _ => False end.
Definition is_packed_check (o : oitem) : Prop := match o with OAssert _ _ _ => True | _ => False end.
Definition same_items (P : oitem -> Prop) (l l' : list oitem) : Prop := forall o, P o -> (In o l <-> In o l').
