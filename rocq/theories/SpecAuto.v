(** Vocabulary for C59: auto traits of projected types. *)
From Coq Require Import String List Bool.
From Verif Require Import Base Syntax ModelArgs ModelUtils SpecDerive SpecExpand SpecRun SpecTraits SpecSized.
Import ListNotations.
Open Scope string_scope.
Open Scope list_scope.

Inductive auto_trait : Type := Send | Sync | Unpin.

(** Rust's rules, for any reading [h] of which of the types that the user wrote
    have these traits, in a program that does not implement them for the
    generated types itself.  Types as in [size_rules]. *)
Record auto_rules (h : auto_trait -> ty -> Prop) (e : expansion) : Prop := {
  au_ref_send : forall lt t, h Send (TyRef lt false t) <-> h Sync t;
  au_mut_send : forall lt t, h Send (TyRef lt true t) <-> h Send t;
  au_ref_sync : forall lt m t, h Sync (TyRef lt m t) <-> h Sync t;
  au_ref_unpin : forall lt m t, h Unpin (TyRef lt m t);
  au_paren : forall x t, h x (TyParen t) <-> h x t;
  (* struct Pin<P> { pointer: P };  PhantomData<T> counts as a field of type [T] *)
  au_pin : forall x u t, lib_ty "Pin" [ATy u] t -> (h x t <-> h x u);
  au_phantom : forall x u t, lib_ty "PhantomData" [ATy u] t -> (h x t <-> h x u);
  (* structs and enums have them if their fields have *)
  au_struct : forall x v i g fs, In (OStruct v i g fs) (all_items e) ->
    (h x (declared_ty i (g_params g)) <-> forall f, In f (fields_list fs) -> h x (f_ty f));
  au_enum : forall x v i g vs, In (OEnum v i g vs) (all_items e) ->
    (h x (declared_ty i (g_params g)) <-> forall w f, In w vs -> In f (fields_list (v_fields w)) -> h x (f_ty f))
}.

(** All fields of the item have a trait. *)
Definition fields_have (it : item) (x : auto_trait) (h : auto_trait -> ty -> Prop) : Prop :=
  forall fs f, In fs (fields_of it) -> In f (fields_list fs) -> h x (spelled_ty it f).
