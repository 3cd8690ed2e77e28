(** Trait objects in fields. *)
From Coq Require Import String Ascii List Bool.
From Verif Require Import Base Syntax ModelArgs ModelUtils ModelAttribute ModelDerive ModelMeaning ModelObject.
From Verif Require Import SpecArgs SpecDerive SpecLifetime SpecExpand SpecRun SpecMeaning SpecObject.
From Verif Require Import ProofsUtils ProofsDerive ProofsExpand ProofsVis ProofsObject Examples ExamplesTraits ExamplesMeaning.
Import ListNotations.
Open Scope string_scope.
Open Scope list_scope.

Definition dyn_tr : ty := TyDyn [BTrait false [] (Path false [seg1 "Tr"])].
Definition boxed (t : ty) : ty := TyPath None (Path false [Seg (I "Box") (GAngle false [ATy t])]).
(** [#[pin_project] struct Foo { a: Box<dyn Tr>, #[pin] b: &'static dyn Tr, c: *const (dyn Tr + 'static), d: Self }] *)
Definition objects_ex : item_struct :=
  mkStruct [pin_attr []] VPub (I "Foo") (mkGenerics [] None)
    (FNamed [mkField [] VInherited (Some (I "a")) (boxed dyn_tr);
             mkField [pin_mark] VInherited (Some (I "b")) (TyRef (Some "'static") false dyn_tr);
             mkField [] VInherited (Some (I "c")) (TyPtr false (TyParen (TyDyn [BTrait false [] (Path false [seg1 "Tr"]); BLt "'static"])));
             mkField [] VInherited (Some (I "d")) ty_self]).
(** [#[pin_project] struct Foo { x: dyn Tr }] *)
Definition bare_ex : item_struct :=
  mkStruct [pin_attr []] VPub (I "Foo") (mkGenerics [] None)
    (FNamed [mkField [] VInherited (Some (I "x")) dyn_tr]).

Definition foo_names (x : string) : head dt :=
  if String.eqb x "Self" then HDone (XInst XItem []) else outer_names x.
(** In the projected type [Self] is the projected type. *)
Definition foo_names' (x : string) : head dt :=
  if String.eqb x "Self" then HDone (usr "Projection") else outer_names x.

Lemma foo_pin pin : pin_lifetime (mkGenerics [] None) pin -> pin = "'pin".
Proof. intros H. rewrite (pin_lifetime_unique _ _ _ H (pin_lifetime_det (mkGenerics [] None))). vm_compute. reflexivity. Qed.

Lemma foo_fields f : In f (fields_list (s_fields objects_ex) ++ fields_list (s_fields bare_ex)) ->
  well_written (tp_ty (own_type (I "Foo") (mkGenerics [] None))) (f_ty f) /\
  copied terms "'pin" foo_names foo_names' (tp_ty (own_type (I "Foo") (mkGenerics [] None))) (f_ty f).
Proof.
  intros Hf.
  assert (Hm : forall m ts, ~ In (NMacro m ts) (nodes_ty (f_ty f))).
  { intros m ts. repeat (destruct Hf as [<-|Hf]; [vm_compute; intuition discriminate|]). destruct Hf. }
  split; constructor.
  - apply no_self_legal. repeat (destruct Hf as [<-|Hf]; [vm_compute; reflexivity|]). destruct Hf.
  - repeat (destruct Hf as [<-|Hf]; [vm_compute; intuition discriminate|]). destruct Hf.
  - intros x Hx. apply lts_binds in Hx. repeat (destruct Hf as [<-|Hf]; [destruct Hx|]). destruct Hf.
  - intros x _ Hn. unfold foo_names, foo_names'. destruct (String.eqb_spec x "Self"); [contradiction|reflexivity].
  - split; [|vm_compute; intuition discriminate]. repeat (destruct Hf as [<-|Hf]; [vm_compute; intuition discriminate|]). destruct Hf.
  - intros m ts lf Hin. destruct (Hm m ts Hin).
  - intros m ts h h' Hin. destruct (Hm m ts Hin).
Qed.

Lemma objects_ex_not_bare f : In f (fields_list (s_fields objects_ex)) -> ~ bare_object (f_ty f).
Proof.
  intros [<-|[<-|[<-|[<-|[]]]]] H; cbn in H.
  - inversion H as [| |? ? ? X|? ? X| | | | | | |]; subst.
    inversion X; subst; match goal with H : In _ _ |- _ => destruct H as [H|[]]; discriminate H end.
  - inversion H.
  - inversion H as [| | | |? ? X| | | | | |]; subst. inversion X as [| | | | | | | | | |? Y]; subst.
    inversion Y as [? Z|? ? ? ? Z Z'| | | | | | | | |]; subst.
    + specialize (Z (BLt "'static") (or_intror (or_introl eq_refl))). discriminate.
    + destruct Z as [Z|[Z|[]]]; [injection Z as <- <- <-|discriminate].
      inversion Z'; subst; match goal with H : In _ _ |- _ => destruct H as [H|[]]; discriminate H end.
  - inversion H as [| |? ? ? X|? ? X| | | | | | |]; subst.
    inversion X; subst; match goal with H : In _ _ |- _ => destruct H as [H|[]]; discriminate H end.
Qed.

Lemma bare_object_differs : exists s e a pin v gg fs' U n n' f f',
  parse_derive (ItStruct s) = Ok e /\ options (s_attrs s) a /\ struct_has PMut a = true /\
  pin_lifetime (s_generics s) pin /\ In (OStruct v (proj_name PMut a (s_ident s)) gg fs') (all_items e) /\
  let self := tp_ty (own_type (s_ident s) (s_generics s)) in
  n "Self" = HDone (den_ty (U := U) (mkEnv n f) self) /\ same_but pin f' f /\
  (forall fld, In fld (fields_list (s_fields s)) -> well_written self (f_ty fld) /\ copied U pin n n' self (f_ty fld)) /\
  ~ Forall2 (means_projected_objects U PMut (f' pin) (mkEnv n f) (mkEnv n' f')) (fields_list (s_fields s)) (fields_list fs').
Proof.
  exists bare_ex. eexists. exists (mkArgs false UDefault None None PRNone), "'pin". do 3 eexists.
  exists terms, foo_names, foo_names', (fun x => x), (fun x => x).
  split; [vm_compute; reflexivity|]. split; [apply parse_args_iff; vm_compute; reflexivity|]. split; [reflexivity|].
  split; [exact (pin_lifetime_det (mkGenerics [] None))|]. split; [right; left; vm_compute; reflexivity|].
  split; [vm_compute; reflexivity|]. split; [intros x _; reflexivity|]. split.
  - intros fld [<-|[]]. apply foo_fields. do 4 right. left. reflexivity.
  - intros H. inversion H as [|? ? ? ? [_ _ M] _]; subst. cbn [f_ty bare_ex] in M.
    assert (N : ~ pinned (mkField [] VInherited (Some (I "x")) dyn_tr)).
    { intros (at' & X & _). destruct X. }
    specialize (M N). vm_compute in M. discriminate.
Qed.
