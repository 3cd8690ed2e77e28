(** Vocabulary for the property about alignment. *)
From Coq Require Import String List Bool.
From Verif Require Import Base Syntax ModelUtils ModelRun ModelLayout SpecExpand.
Import ListNotations.
Open Scope list_scope.

(** The references in a projection. *)
Inductive refers : rv -> nat -> Prop :=
| Ref_plain p l x m i : In (x, RRef m (PlField i)) l -> refers (RProj p l) i
| Ref_pinned p l x m i : In (x, RPin m (PlField i)) l -> refers (RProj p l) i.

(** The expansion [e] of [s] compiles although [s] is packed by [pack]. *)
Definition check_compiles (s : item_struct) (e : expansion) (inst : Type) (aligns : inst -> list nat) (pack : option nat) : Prop :=
  (forall a, length (aligns a) = length (fields_list (s_fields s))) /\
  forall it, In it (scoped e) ->
    assert_compiles inst aligns pack (tp_ty (own_type (s_ident s) (s_generics s))) (s_fields s) it.
