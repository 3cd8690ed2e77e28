(** C70: [!Unpin] and a pinned [PhantomPinned] field do the same. *)
From Coq Require Import String List Bool.
From Verif Require Import Base Syntax ModelArgs ModelUtils ModelDerive ModelMeaning ModelTraits.
From Verif Require Import SpecArgs SpecDerive SpecLifetime SpecExpand SpecRun SpecMeaning SpecTraits SpecPhantom.
From Verif Require Import ProofsTraitsProps ProofsPhantom Examples ExamplesTraits ExamplesPhantom.
Import ListNotations.
Open Scope string_scope.
Open Scope list_scope.

(** An item with a pinned field of type [PhantomPinned] is never [Unpin]. *)
Theorem C70_never : forall se holds fails a s l f,
  options (attrs_of (se_item se)) a -> legal se -> uncaptured se -> compiles se holds fails -> ar_unpin a = UDefault ->
  pinned_field se f -> type_at se s l f = phantom_pinned_type se ->
  ~ holds (unpin se) (item_at se s l).
Proof. exact c70_never. Qed.
Print Assumptions C70_never.

(** An item with [!Unpin], and the same item with a pinned [PhantomPinned] field
    in place of the option: neither is [Unpin], at any instance. *)
Theorem C70_equivalent : forall se it e other holds fails holds' fails' a a' f s l,
  let se' := with_item se it e other in
  options (attrs_of (se_item se)) a -> legal se -> uncaptured se -> compiles se holds fails -> ar_unpin a = UNegative ->
  options (attrs_of it) a' -> legal se' -> uncaptured se' -> compiles se' holds' fails' -> ar_unpin a' = UDefault ->
  one_more f (se_item se) it -> pinned f -> type_at se' s l f = phantom_pinned_type se ->
  ~ holds (unpin se) (item_at se s l) /\ ~ holds' (unpin se) (item_at se' s l).
Proof. exact c70_equivalent. Qed.
Print Assumptions C70_equivalent.

(** One more field without [#[pin]], of type [PhantomPinned] or any other, has no
    effect; the two programs are supposed to agree on the item's where clause and
    on the types of the pinned fields. *)
Theorem C70_no_effect : forall se it e other holds fails holds' fails' a a' f s l,
  let se' := with_item se it e other in
  options (attrs_of (se_item se)) a -> legal se -> uncaptured se -> compiles se holds fails -> ar_unpin a = UDefault ->
  options (attrs_of it) a' -> legal se' -> uncaptured se' -> compiles se' holds' fails' -> ar_unpin a' = UDefault ->
  one_more f (se_item se) it -> ~ pinned f ->
  (where_holds se holds s l <-> where_holds se' holds' s l) ->
  (forall f', pinned_field se f' -> (holds (unpin se) (type_at se s l f') <-> holds' (unpin se) (type_at se s l f'))) ->
  (holds (unpin se) (item_at se s l) <-> holds' (unpin se) (item_at se' s l)).
Proof. exact c70_no_effect. Qed.
Print Assumptions C70_no_effect.

(** [#[pin_project(!Unpin)] struct Foo<T, U> { #[pin] a: T, b: U }] and
    [#[pin_project] struct Foo<T, U> { #[pin] a: T, #[pin] _pin: PhantomPinned, b: U }]. *)
Example C70_equivalent_ex :
  prog ph_marked [] = with_item (prog ph_neg []) ph_marked (se_exp (prog ph_marked [])) (se_other (prog ph_marked [])) /\
  (forall it, In it [ph_neg; ph_marked] -> options (attrs_of it) (ph_opts it) /\ legal (prog it []) /\ uncaptured (prog it []) /\
    compiles (prog it []) (least (prog it [])) (can_tell (prog it []) (least (prog it [])))) /\
  ar_unpin (ph_opts ph_neg) = UNegative /\ ar_unpin (ph_opts ph_marked) = UDefault /\
  one_more (ph_field [pin_mark]) ph_neg ph_marked /\ pinned (ph_field [pin_mark]) /\
  (forall s l,
    type_at (prog ph_marked []) s l (ph_field [pin_mark]) = phantom_pinned_type (prog ph_neg [])).
Proof.
  split; [reflexivity|]. split.
  { intros it H. assert (X : In it ph_items) by (unfold ph_items; cbn in *; tauto).
    split; [exact (ph_options it X)|]. split; [exact (ph_legal it X)|]. split; [exact (ph_uncaptured it X)|exact (ph_compiles it X)]. }
  split; [reflexivity|]. split; [reflexivity|]. split; [apply ph_one_more|]. split; [exact ph_mark|].
  intros s l. reflexivity.
Qed.

(** Without the mark: [Foo<u8, PhantomPinned>] is [Unpin], with and without the field. *)
Example C70_no_effect_ex :
  prog ph_unmarked [] = with_item (prog ph_def []) ph_unmarked (se_exp (prog ph_unmarked [])) (se_other (prog ph_unmarked [])) /\
  (forall it, In it [ph_def; ph_unmarked] -> options (attrs_of it) (ph_opts it) /\ ar_unpin (ph_opts it) = UDefault /\
    legal (prog it []) /\ uncaptured (prog it []) /\
    compiles (prog it []) (least (prog it [])) (can_tell (prog it []) (least (prog it []))) /\
    where_holds (prog it []) (least (prog it [])) (s_of (usr "u8") phantom_pinned_) lt_ /\
    least (prog it []) (unpin (prog it [])) (item_at (prog it []) (s_of (usr "u8") phantom_pinned_) lt_)) /\
  one_more (ph_field []) ph_def ph_unmarked /\ ~ pinned (ph_field []).
Proof.
  split; [reflexivity|]. split; [|split; [apply ph_one_more|exact ph_no_mark]].
  intros it H. assert (X : In it ph_items) by (unfold ph_items; cbn in *; tauto).
  assert (Eu : ar_unpin (ph_opts it) = UDefault) by (destruct H as [<-|[<-|[]]]; reflexivity).
  assert (W : where_holds (prog it []) (least (prog it [])) (s_of (usr "u8") phantom_pinned_) lt_).
  { apply ph_where; [exact X|apply sized_holds, XS_bare; reflexivity|apply sized_holds, XS_bare; reflexivity]. }
  split; [exact (ph_options it X)|]. split; [exact Eu|]. split; [exact (ph_legal it X)|]. split; [exact (ph_uncaptured it X)|].
  split; [exact (ph_compiles it X)|]. split; [exact W|].
  apply (c28 (prog it []) _ _ _ _ _ (ph_options it X) (ph_legal it X) (ph_uncaptured it X) (ph_compiles it X) Eu).
  split; [exact W|]. intros f (fs & Hfs & Hf & Hp).
  destruct H as [<-|[<-|[]]]; destruct Hfs as [<-|[]]; cbn in Hf; decompose [or] Hf; clear Hf; try contradiction; subst f;
    try apply u8_unpin; destruct Hp as (x & [] & _).
Qed.
