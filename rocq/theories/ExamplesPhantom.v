(** Concrete items for C70: [struct Foo<T, U> { #[pin] a: T, b: U }] and the same
    with a field [_pin: PhantomPinned], marked or not. *)
From Coq Require Import String List Bool.
From Verif Require Import Base Syntax ModelArgs ModelAttribute ModelUtils ModelDerive ModelMeaning ModelTraits.
From Verif Require Import SpecArgs SpecDerive SpecLifetime SpecExpand SpecRun SpecMeaning SpecTraits SpecPhantom.
From Verif Require Import ProofsArgs ProofsDerive ProofsTraitsProps ProofsPhantom Examples ExamplesTraits.
Import ListNotations.
Open Scope string_scope.
Open Scope list_scope.

Definition ph_item (ts : list ttree) (more : list field) : item :=
  ItStruct (mkStruct [pin_attr ts] VPub (I "Foo") (mkGenerics [PTy (I "T") [] None; PTy (I "U") [] None] None)
    (FNamed (mkField [pin_mark] VInherited (Some (I "a")) (tid "T") :: more ++ [mkField [] VInherited (Some (I "b")) (tid "U")]))).
Definition ph_field (marks : list attr) : field := mkField marks VInherited (Some (I "_pin")) (tid "PhantomPinned").
Definition ph_neg : item := ph_item t_negative [].
Definition ph_def : item := ph_item t_default [].
Definition ph_marked : item := ph_item t_default [ph_field [pin_mark]].
Definition ph_unmarked : item := ph_item t_default [ph_field []].
Definition ph_items : list item := [ph_neg; ph_def; ph_marked; ph_unmarked].
Definition ph_opts (it : item) : args :=
  match parse_args (attrs_of it) with Ok a => a | _ => mkArgs false UDefault None None PRNone end.

Ltac each H := destruct H as [<-|[<-|[<-|[<-|[]]]]].
Lemma ph_options it : In it ph_items -> options (attrs_of it) (ph_opts it).
Proof. intros H. each H; apply parse_args_iff; vm_compute; reflexivity. Qed.
Lemma ph_rust it : In it ph_items -> rust (prog it []).
Proof.
  intros H. apply (prog_rust it [] (match parse_derive it with Ok e => e | _ => mkExpansion [] [] end)).
  - each H; vm_compute; reflexivity.
  - each H; reflexivity.
  - exists [], [PTy (I "T") [] None; PTy (I "U") [] None]. split; [each H; reflexivity|].
    split; [intros p []|intros p [<-|[<-|[]]]; reflexivity].
  - intros im s l tr en b [].
Qed.
Lemma ph_legal it : In it ph_items -> legal (prog it []).
Proof.
  intros H. apply check_legal.
  - each H; reflexivity.
  - each H; discriminate.
  - each H; cbn; intuition discriminate.
  - each H; cbn; intuition.
Qed.
Lemma ph_uncaptured it : In it ph_items -> uncaptured (prog it []).
Proof.
  intros H. apply check_uncaptured.
  - apply check_visible. each H; vm_compute; reflexivity.
  - each H; reflexivity.
  - each H; vm_compute; reflexivity.
Qed.
Lemma ph_compiles it : In it ph_items ->
  compiles (prog it []) (least (prog it [])) (can_tell (prog it []) (least (prog it []))).
Proof.
  intros H. apply (compiles_alone it _ (ph_options it H) (ph_rust it H) (un_visible _ (ph_uncaptured it H))).
  each H; reflexivity.
Qed.
Lemma ph_where it (h : dt -> dt -> Prop) s l : In it ph_items -> h core_sized (s "T") -> h core_sized (s "U") ->
  where_holds (prog it []) h s l.
Proof.
  intros H H1 H2 w Hw. each H; cbn in Hw; destruct Hw as [<-|[<-|[<-|[<-|[]]]]];
    try (intros f Hf b []; fail); intros f Hf b [<-|[]] f' Hf'; assumption.
Qed.
Lemma ph_one_more ts marks : one_more (ph_field marks) (ph_item ts []) (ph_item t_default [ph_field marks]).
Proof.
  split; [reflexivity|]. split; [reflexivity|]. exists []. eexists. eexists. exists []. eexists [_]. eexists.
  split; [reflexivity|]. split; [reflexivity|]. split; reflexivity.
Qed.
Lemma ph_mark : pinned (ph_field [pin_mark]).
Proof. exists pin_mark. split; [left; reflexivity|]. repeat split. Qed.
Lemma ph_no_mark : ~ pinned (ph_field []).
Proof. intros (x & [] & _). Qed.
