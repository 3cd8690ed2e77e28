(** C50: rewritten and generated code parses. *)
From Coq Require Import String Ascii List Bool.
From Verif Require Import Base Syntax ModelArgs ModelUtils ModelDerive ModelPinnedDrop.
From Verif Require Import SpecDerive SpecExpand SpecRun SpecPinnedDrop SpecParse.
From Verif Require Import ProofsParse ProofsFindings Examples ExamplesTraits ExamplesMeaning ExamplesPinnedDrop ExamplesBody.
Import ListNotations.
Open Scope string_scope.
Open Scope list_scope.

(** If the item obeys the grammar then so do all generated items: references to
    [dyn A + B] get their parentheses. *)
Theorem C50_expansion : forall it e o,
  parse_derive it = Ok e -> ordered (params_of it) -> parses_item it = true ->
  In o (all_items e) -> parses_oitem o = true.
Proof. exact expansion_parses. Qed.
Print Assumptions C50_expansion.
Example C50_expansion_example :
  (exists e f g, parse_derive plus_item = Ok e /\ In (OStruct VInherited (I "__FooProjection") g (FUnnamed [f;
     mkField [] VInherited None (TyRef (Some "'pin") true (TyParen (TyArray (TyPath None p_foo)
       (ECall (EPath (Some (TyPath None p_foo, 0)) (Path true [seg1 "n"]))
          [EPath None (Path false [Seg (I "Foo") (GAngle true [ATy (tid "T")])])]))))])) (all_items e)) /\
  parses_item plus_item = true /\
  parses_ty (TyRef (Some "'pin") true (TyDyn [BTrait false [] (pth ["A"]); BTrait false [] (pth ["B"])])) = false /\
  parses_expr (EPath None (Path false [Seg (I "Foo") (GAngle false [ATy (tid "T")])])) = false.
Proof.
  split; [|split; [|split]]; try (vm_compute; reflexivity). do 3 eexists. split; [vm_compute; reflexivity|].
  right. left. reflexivity.
Qed.

(** The same of the impl under [#[pinned_drop]], with its body, ... *)
Theorem C50_pinned_drop : forall args im im',
  pinned_drop_attribute args im = Ok (PdImpl im') -> parses_impl im = true -> named_by_path (im_self im) ->
  parses_impl im' = true.
Proof. exact pinned_drop_parses. Qed.
Print Assumptions C50_pinned_drop.
Example C50_pinned_drop_example :
  (exists im', pinned_drop_attribute [] self_impl = Ok (PdImpl im') /\ im' <> self_impl) /\ parses_impl self_impl = true /\
  named_by_path (im_self self_impl).
Proof.
  split; [|split; [vm_compute; reflexivity|do 2 eexists; split; reflexivity]].
  eexists. split; [vm_compute; reflexivity|]. discriminate.
Qed.

(** ... and of the impl that stands in for a rejected one. *)
Theorem C50_stand_in : forall args im msg d,
  pinned_drop_attribute args im = Ok (PdError msg (Some d)) -> parses_impl im = true -> parses_impl d = true.
Proof. exact pinned_drop_dummy_parses. Qed.
Print Assumptions C50_stand_in.
Example C50_stand_in_example :
  exists msg d, pinned_drop_attribute [] (pd_impl []) = Ok (PdError msg (Some d)) /\ parses_impl (pd_impl []) = true.
Proof. do 2 eexists. split; vm_compute; reflexivity. Qed.

(** Empty brackets get no [::] (finding F16): in [impl PinnedDrop for Foo<>] the
    value [Self] becomes [Foo<>], which is not an expression. *)
Theorem C50_empty_brackets_refuted : exists im im' lead segs,
  pinned_drop_attribute [] im = Ok (PdImpl im') /\ parses_impl im = true /\ im_self im = TyPath None (Path lead segs) /\
  parses_impl im' = false.
Proof. exact empty_brackets. Qed.
Print Assumptions C50_empty_brackets_refuted.
