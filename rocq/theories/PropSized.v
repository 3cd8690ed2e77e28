(** C56: a struct with an unsized last field can be projected. *)
From Coq Require Import String List Bool.
From Verif Require Import Base Syntax ModelArgs ModelUtils ModelDerive.
From Verif Require Import SpecArgs SpecDerive SpecExpand SpecRun SpecTraits SpecDecl SpecSized.
From Verif Require Import ProofsSized Examples ExamplesSized.
Import ListNotations.
Open Scope string_scope.
Open Scope list_scope.

(** The fields before the last one are [Sized], as Rust demands.  Then all that
    has to be [Sized] in the generated code is, if the last field is; if it is
    not, exactly without [project_replace], and unless the field is pinned, the
    item has lifetime parameters and the [Unpin] impl is the default one (there
    the helper struct puts the lifetimes behind the pinned field). *)
Theorem C56_struct_partial : forall s e a sz before last,
  parse_derive (ItStruct s) = Ok e -> options (s_attrs s) a -> ordered (g_params (s_generics s)) ->
  size_rules sz (ItStruct s) e -> fields_list (s_fields s) = before ++ [last] ->
  (forall f, In f before -> sz (spelled_ty (ItStruct s) f)) ->
  (forall f, In f (before ++ [last]) -> args_sized sz (spelled_ty (ItStruct s) f)) ->
  (all_sized sz e <->
   sz (spelled_ty (ItStruct s) last) \/
   (struct_has POwn a = false /\ (ar_unpin a = UDefault -> pinned last -> lt_params (g_params (s_generics s)) = []))).
Proof. exact c56_struct. Qed.
Print Assumptions C56_struct_partial.

(** [#[pin_project] struct Foo<'a, T: ?Sized> { x: &'a u8, #[pin] y: T }] *)
Theorem C56_refuted : exists s e a sz before last,
  parse_derive (ItStruct s) = Ok e /\ options (s_attrs s) a /\ ordered (g_params (s_generics s)) /\
  size_rules sz (ItStruct s) e /\ fields_list (s_fields s) = before ++ [last] /\
  (forall f, In f before -> sz (spelled_ty (ItStruct s) f)) /\
  (forall f, In f (before ++ [last]) -> args_sized sz (spelled_ty (ItStruct s) f)) /\
  struct_has POwn a = false /\ ~ all_sized sz e.
Proof. exact c56_refuted. Qed.
Print Assumptions C56_refuted.

(** All fields of enums are [Sized]. *)
Theorem C56_enum : forall en e sz,
  parse_derive (ItEnum en) = Ok e -> ordered (g_params (e_generics en)) -> size_rules sz (ItEnum en) e ->
  (forall v f, In v (e_variants en) -> In f (fields_list (v_fields v)) ->
     sz (spelled_ty (ItEnum en) f) /\ args_sized sz (spelled_ty (ItEnum en) f)) ->
  all_sized sz e.
Proof. exact c56_enum. Qed.
Print Assumptions C56_enum.

(** The bounds that the macro adds to the user's ask for no size at all: neither
    [PinnedFieldsOf<Wrapper<'pin, Self>>: UnsafeUnpin] nor the others. *)
Theorem C56_bounds : forall it e im lts t bs u v,
  parse_derive it = Ok e -> ordered (params_of it) -> In (OImpl im) (all_items e) ->
  In (WTy lts t bs) (preds (i_generics im)) -> ~ In (WTy lts t bs) (preds (spelled (name_of it) (generics_of it))) ->
  inside t u -> ~ needs u v.
Proof. exact c56_bounds. Qed.
Print Assumptions C56_bounds.

(** [struct Foo<T: ?Sized> { x: u8, #[pin] y: T }], alone, with [project_replace]
    and with [!Unpin]; [T] has no size. *)
Example C56_struct_examples :
  (exists e, parse_derive (ItStruct (tailed false [])) = Ok e /\ size_rules sz_ex (ItStruct (tailed false [])) e /\ all_sized sz_ex e) /\
  (exists e, parse_derive (ItStruct (tailed false replace_args)) = Ok e /\ size_rules sz_ex (ItStruct (tailed false replace_args)) e /\ ~ all_sized sz_ex e) /\
  (exists e, parse_derive (ItStruct (tailed true not_unpin_args)) = Ok e /\ size_rules sz_ex (ItStruct (tailed true not_unpin_args)) e /\ all_sized sz_ex e).
Proof.
  split; [|split].
  - destruct (tailed_hyps false [] _ (or_introl eq_refl)) as (e & before & last & H1 & H2 & H3 & H4 & H5 & H6 & H7 & H8 & H9 & H10).
    exists e. split; [exact H1|]. split; [exact H4|]. apply (C56_struct_partial _ _ _ _ _ _ H1 H2 H3 H4 H5 H6 H7). right. split; [reflexivity|]. intros _ _. exact H10.
  - destruct (tailed_hyps false replace_args _ (or_intror (or_introl eq_refl))) as (e & before & last & H1 & H2 & H3 & H4 & H5 & H6 & H7 & H8 & H9 & H10).
    exists e. split; [exact H1|]. split; [exact H4|]. rewrite (C56_struct_partial _ _ _ _ _ _ H1 H2 H3 H4 H5 H6 H7). intros [X|[X _]]; [exact (H8 X)|discriminate].
  - destruct (tailed_hyps true not_unpin_args _ (or_intror (or_intror (or_introl eq_refl)))) as (e & before & last & H1 & H2 & H3 & H4 & H5 & H6 & H7 & H8 & H9 & H10).
    exists e. split; [exact H1|]. split; [exact H4|]. apply (C56_struct_partial _ _ _ _ _ _ H1 H2 H3 H4 H5 H6 H7). right. split; [reflexivity|]. discriminate.
Qed.
Example C56_enum_example : let en := enum_ex args_enum in
  exists e, parse_derive (ItEnum en) = Ok e /\ ordered (g_params (e_generics en)) /\ size_rules all_types (ItEnum en) e /\
  forall v f, In v (e_variants en) -> In f (fields_list (v_fields v)) ->
    all_types (spelled_ty (ItEnum en) f) /\ args_sized all_types (spelled_ty (ItEnum en) f).
Proof.
  eexists. split; [vm_compute; reflexivity|]. split.
  { exists []. eexists. split; [reflexivity|]. split; [intros p []|]. intros p [<-|[]]. reflexivity. }
  split; [constructor; unfold all_types; tauto|]. intros v f _ _. split; [exact Logic.I|]. intros u _. exact Logic.I.
Qed.
(** [PinnedFieldsOf<__Foo<'pin, T>>: Unpin] is such a bound. *)
Example C56_bounds_example : let it := ItStruct (tailed false []) in
  exists e im lts t bs, parse_derive it = Ok e /\ ordered (params_of it) /\ In (OImpl im) (all_items e) /\
  In (WTy lts t bs) (preds (i_generics im)) /\ ~ In (WTy lts t bs) (preds (spelled (name_of it) (generics_of it))) /\
  exists u, inside t u /\ u <> t.
Proof.
  intros it. do 5 eexists. split; [vm_compute; reflexivity|]. split.
  { exists []. eexists. split; [reflexivity|]. split; [intros p []|]. intros p [<-|[]]. reflexivity. }
  split; [vm_compute; do 6 right; left; reflexivity|]. split; [left; reflexivity|]. split; [intros []|].
  eexists. split; [eapply IN_arg; [apply LT_inside|left; reflexivity|apply IN_self]|]. discriminate.
Qed.
