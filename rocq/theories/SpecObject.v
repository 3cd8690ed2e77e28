(** Trait objects that stand in a field without a lifetime. *)
From Coq Require Import String List Bool.
From Verif Require Import Base Syntax ModelUtils ModelMeaning ModelObject SpecDerive SpecExpand SpecMeaning.
Import ListNotations.
Open Scope string_scope.
Open Scope list_scope.

(** [dyn Tr] with no lifetime bound occurs in the type, outside of references
    and of arguments in angle brackets: [dyn Tr], [( dyn Tr )],
    [*const dyn Tr], ... but not [Box<dyn Tr>], [&'a dyn Tr] and
    [dyn Tr + 'a]. *)
Inductive bare_object : ty -> Prop :=
| BO_here bs : (forall b, In b bs -> is_lt_bound b = false) -> bare_object (TyDyn bs)
| BO_bound bs m lts p : In (BTrait m lts p) bs -> bare_path p -> bare_object (TyDyn bs)
| BO_qself t n p : bare_object t -> bare_object (TyPath (Some (t, n)) p)
| BO_path q p : bare_path p -> bare_object (TyPath q p)
| BO_ptr m t : bare_object t -> bare_object (TyPtr m t)
| BO_tuple l t : In t l -> bare_object t -> bare_object (TyTuple l)
| BO_slice t : bare_object t -> bare_object (TySlice t)
| BO_array t e : bare_object t -> bare_object (TyArray t e)
| BO_fn lts l o t : In t l -> bare_object t -> bare_object (TyFn lts l o)
| BO_fn_ret lts l t : bare_object t -> bare_object (TyFn lts l (Some t))
| BO_paren t : bare_object t -> bare_object (TyParen t)
with bare_path : path -> Prop :=
| BP_arg lead segs i l o t : In (Seg i (GParen l o)) segs -> In t l -> bare_object t -> bare_path (Path lead segs)
| BP_ret lead segs i l t : In (Seg i (GParen l (Some t))) segs -> bare_object t -> bare_path (Path lead segs).

(** As [means_projected], of the types with all bounds of trait objects spelled
    out. *)
Record means_projected_objects (U : univ) (k : proj) (r : LT U) (E E' : env (D U) (LT U)) (fld fld' : field) : Prop := {
  mo_ident : f_ident fld' = f_ident fld;
  mo_pinned : pinned fld ->
    den_ty E' (field_type (f_ty fld')) = projected_meaning U k true r (den_ty E (field_type (f_ty fld)));
  mo_unpinned : ~ pinned fld ->
    den_ty E' (field_type (f_ty fld')) = projected_meaning U k false r (den_ty E (field_type (f_ty fld)))
}.
