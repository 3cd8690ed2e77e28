(** Vocabulary for C53: items that differ in attributes of others. *)
From Coq Require Import String List Bool.
From Verif Require Import Base Syntax SpecArgs SpecDerive.
Import ListNotations.
Open Scope string_scope.
Open Scope list_scope.

(** Two lists of attributes with the same attributes called [names], in the same
    order; others are inserted and left out at will. *)
Inductive same_named (names : list string) : list attr -> list attr -> Prop :=
| SN_nil : same_named names [] []
| SN_both x l l' : same_named names l l' -> same_named names (x :: l) (x :: l')
| SN_left x l l' : (forall n, In n names -> ~ attr_named x n) -> same_named names l l' -> same_named names (x :: l) l'
| SN_right x l l' : (forall n, In n names -> ~ attr_named x n) -> same_named names l l' -> same_named names l (x :: l').

(** Fields that differ only in attributes that are not [#[pin]]. *)
Definition field_alike (f f' : field) : Prop :=
  same_named ["pin"] (f_attrs f) (f_attrs f') /\
  f_vis f = f_vis f' /\ f_ident f = f_ident f' /\ f_ty f = f_ty f'.
Inductive fields_alike : fields -> fields -> Prop :=
| FA_named l l' : Forall2 field_alike l l' -> fields_alike (FNamed l) (FNamed l')
| FA_unnamed l l' : Forall2 field_alike l l' -> fields_alike (FUnnamed l) (FUnnamed l')
| FA_unit : fields_alike FUnit FUnit.
Definition variant_alike (v v' : variant) : Prop :=
  same_named ["pin"] (v_attrs v) (v_attrs v') /\
  v_ident v = v_ident v' /\ fields_alike (v_fields v) (v_fields v') /\ v_disc v = v_disc v'.
(** On the item itself the options, [#[pin_project]] and [#[repr]] count. *)
Definition item_names : list string := ["pin"; "pin_project"; "repr"].
Inductive item_alike : item -> item -> Prop :=
| IA_struct s s' : same_named item_names (s_attrs s) (s_attrs s') -> s_vis s = s_vis s' -> s_ident s = s_ident s' ->
    s_generics s = s_generics s' -> fields_alike (s_fields s) (s_fields s') -> item_alike (ItStruct s) (ItStruct s')
| IA_enum e e' : same_named item_names (e_attrs e) (e_attrs e') -> e_vis e = e_vis e' -> e_ident e = e_ident e' ->
    e_generics e = e_generics e' -> Forall2 variant_alike (e_variants e) (e_variants e') -> item_alike (ItEnum e) (ItEnum e')
| IA_other : item_alike ItOther ItOther.

(** The attributes on the fields and variants of a generated item. *)
Definition attrs_inside (o : oitem) : list attr :=
  match o with
  | OStruct _ _ _ fs => flat_map f_attrs (fields_list fs)
  | OEnum _ _ _ vs => flat_map (fun v => v_attrs v ++ flat_map f_attrs (fields_list (v_fields v))) vs
  | _ => []
  end.
