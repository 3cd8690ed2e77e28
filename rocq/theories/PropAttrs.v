(** C53: attributes of others do not matter. *)
From Coq Require Import String List Bool.
From Verif Require Import Base Syntax ModelArgs ModelUtils ModelAttribute ModelDerive.
From Verif Require Import SpecArgs SpecDerive SpecExpand SpecAttrs.
From Verif Require Import ProofsAttrs Examples.
Import ListNotations.
Open Scope string_scope.
Open Scope list_scope.

(** Items that differ only in attributes other than [#[pin]] (and, on the item
    itself, [#[pin_project]] and [#[repr]]) have the same expansion, or are
    rejected with the same message. *)
Theorem C53_other_attributes : forall it it', item_alike it it' -> parse_derive it = parse_derive it'.
Proof. exact c53. Qed.
Print Assumptions C53_other_attributes.

(** No attribute on a field or variant is copied to what is generated. *)
Theorem C53_no_copies : forall it e o, parse_derive it = Ok e -> In o (all_items e) -> attrs_inside o = [].
Proof. exact c53_no_copies. Qed.
Print Assumptions C53_no_copies.

(** [struct_ex] without its doc comment, with one more on each field, and an enum
    with documented variants. *)
Example C53_example :
  item_alike (ItStruct (struct_ex args_struct))
    (ItStruct (mkStruct [repr_c; pin_attr args_struct; doc_attr; doc_attr] VPub (I "Foo") generics_ex
      (FNamed (map (fun f => mkField (doc_attr :: f_attrs f) (f_vis f) (f_ident f) (f_ty f)) fields_ex)))) /\
  item_alike (ItEnum (enum_ex args_enum))
    (ItEnum (mkEnum (e_attrs (enum_ex args_enum)) (e_vis (enum_ex args_enum)) (e_ident (enum_ex args_enum))
      (e_generics (enum_ex args_enum))
      (map (fun v => mkVariant (doc_attr :: v_attrs v) (v_ident v) (v_fields v) (v_disc v)) (e_variants (enum_ex args_enum))))) /\
  (exists e, parse_derive (ItStruct (struct_ex args_struct)) = Ok e) /\
  (exists e, parse_derive (ItEnum (enum_ex args_enum)) = Ok e).
Proof.
  assert (D : forall names, ~ In "doc" names -> forall n, In n names -> ~ attr_named doc_attr n).
  { intros names H n Hn [_ E]. injection E as E. apply H. rewrite E. exact Hn. }
  assert (D1 : forall n, In n item_names -> ~ attr_named doc_attr n) by (apply D; cbn; intuition discriminate).
  assert (D2 : forall n, In n ["pin"] -> ~ attr_named doc_attr n) by (apply D; cbn; intuition discriminate).
  assert (R : forall names l, same_named names l l) by (intros names l; induction l; constructor; assumption).
  split; [|split; [|split; eexists; vm_compute; reflexivity]].
  - apply IA_struct; try reflexivity.
    + cbn. apply SN_left; [exact D1|]. do 2 apply SN_both. do 2 (apply SN_right; [exact D1|]). constructor.
    + constructor. generalize fields_ex. intros l. induction l as [|f l IH]; constructor; [|exact IH].
      repeat split. cbn. apply SN_right; [exact D2|apply R].
  - apply IA_enum; try reflexivity; [apply R|]. cbn. repeat constructor; try exact D2; apply R.
Qed.
