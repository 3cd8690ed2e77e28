(** Vocabulary for C61: variance of projected types. *)
From Coq Require Import String List Bool.
From Verif Require Import Base Syntax ModelArgs ModelUtils SpecDerive SpecLifetime SpecExpand SpecRun SpecTraits SpecSized.
Import ListNotations.
Open Scope string_scope.
Open Scope list_scope.

(** [v Co p t]: the type [t] becomes a supertype when the parameter [p] (a lifetime
    or a type) is replaced by a supertype (a shorter lifetime); [v Contra p t]: by
    a subtype.  Both hold if [t] does not depend on [p], and neither does if [t]
    is invariant in [p]. *)
Inductive direction : Type := Co | Contra.
Inductive param : Type := Lifetime (lt : string) | Type_ (i : ident).

(** Rust's rules, for any reading [v] of the types that the user wrote.  Types as
    in [size_rules]. *)
Record variance_rules (v : direction -> param -> ty -> Prop) (it : item) (e : expansion) : Prop := {
  (* &'a T: covariant in ['a] and [T];  &'a mut T: covariant in ['a], invariant in [T] *)
  va_ref : forall d p lt t, v d p (TyRef (Some lt) false t) <-> v d p t /\ (d = Contra -> p <> Lifetime lt);
  va_mut : forall d p lt t, v d p (TyRef (Some lt) true t) <-> v Co p t /\ v Contra p t /\ (d = Contra -> p <> Lifetime lt);
  va_paren : forall d p t, v d p (TyParen t) <-> v d p t;
  (* struct Pin<P> { pointer: P };  PhantomData<T> counts as a field of type [T] *)
  va_pin : forall d p u t, lib_ty "Pin" [ATy u] t -> (v d p t <-> v d p u);
  va_phantom : forall d p u t, lib_ty "PhantomData" [ATy u] t -> (v d p t <-> v d p u);
  (* structs and enums vary as all their fields do *)
  va_item : forall d p, v d p (declared_ty (name_of it) (params_of it)) <->
    forall fs f, In fs (fields_of it) -> In f (fields_list fs) -> v d p (spelled_ty it f);
  va_struct : forall d p w i g fs, In (OStruct w i g fs) (all_items e) ->
    (v d p (declared_ty i (g_params g)) <-> forall f, In f (fields_list fs) -> v d p (f_ty f));
  va_enum : forall d p w i g vs, In (OEnum w i g vs) (all_items e) ->
    (v d p (declared_ty i (g_params g)) <-> forall x f, In x vs -> In f (fields_list (v_fields x)) -> v d p (f_ty f));
  (* the fields depend on no lifetime but the item's parameters (E0261) *)
  va_fresh : forall d lt fs f, (forall bs, ~ In (PLt lt bs) (params_of it)) ->
    In fs (fields_of it) -> In f (fields_list fs) -> v d (Lifetime lt) (spelled_ty it f)
}.

(** A parameter of the item. *)
Inductive param_of (it : item) : param -> Prop :=
| PO_lt lt bs : In (PLt lt bs) (params_of it) -> param_of it (Lifetime lt)
| PO_ty i bs d : In (PTy i bs d) (params_of it) -> param_of it (Type_ i).
