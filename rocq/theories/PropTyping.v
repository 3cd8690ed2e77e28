(** C60: generated methods type-check, and impls say what their traits ask for. *)
From Coq Require Import String List Bool.
From Verif Require Import Base Syntax ModelArgs ModelUtils ModelDerive.
From Verif Require Import SpecArgs SpecDerive SpecExpand SpecRun SpecSized SpecTyping.
From Verif Require Import ProofsDerive ProofsTyping Examples ExamplesRun.
Import ListNotations.
Open Scope string_scope.
Open Scope list_scope.

(** [ar_pinned_drop a = true -> pd ty_self]: with [PinnedDrop] the user implements
    it by [#[pinned_drop]] (E0277 otherwise).  The names of fields only matter to
    [project_replace]. *)
Theorem C60_typed : forall it e a (pd : ty -> Prop) o,
  parse_derive it = Ok e -> options (attrs_of it) a -> ordered (params_of it) ->
  (forall fs, In fs (fields_of it) -> fields_legal fs) ->
  (has_proj POwn it a = true -> forall fs, In fs (fields_of it) -> replaceable fs) ->
  (ar_pinned_drop a = true -> pd ty_self) ->
  In o (all_items e) -> well_typed pd it e o.
Proof. exact c60. Qed.
Print Assumptions C60_typed.

(** With [project_replace], the condition on the names of pinned fields is exact. *)
Theorem C60_replace : forall it e a (pd : ty -> Prop),
  parse_derive it = Ok e -> options (attrs_of it) a -> ordered (params_of it) ->
  (forall fs, In fs (fields_of it) -> fields_legal fs) ->
  (ar_pinned_drop a = true -> pd ty_self) -> has_proj POwn it a = true ->
  ((forall o, In o (all_items e) -> well_typed pd it e o) <->
   (forall fs, In fs (fields_of it) -> replaceable fs)).
Proof. exact c60_replace_iff. Qed.
Print Assumptions C60_replace.

(** With [PinnedDrop], the code needs the type to implement [PinnedDrop]. *)
Theorem C60_pinned_drop : forall it e a (pd : ty -> Prop),
  parse_derive it = Ok e -> options (attrs_of it) a -> ordered (params_of it) ->
  ar_pinned_drop a = true ->
  (forall o, In o (all_items e) -> well_typed pd it e o) -> exists t, same_ty t ty_self /\ pd t.
Proof. exact c60_pinned_drop. Qed.
Print Assumptions C60_pinned_drop.

Example C60_struct_example : let it := ItStruct (struct_ex args_struct) in
  exists e, parse_derive it = Ok e /\ options (attrs_of it) opts_struct /\ ordered (params_of it) /\
  (forall fs, In fs (fields_of it) -> fields_legal fs) /\
  has_proj POwn it opts_struct = true /\ (forall fs, In fs (fields_of it) -> replaceable fs) /\
  (ar_pinned_drop opts_struct = true -> False).
Proof.
  intros it. eexists. split; [vm_compute; reflexivity|]. split; [apply parse_args_iff; vm_compute; reflexivity|]. split.
  { exists [PLt "'pin" []]. eexists. split; [reflexivity|]. split; [intros p [<-|[]]; reflexivity|].
    intros p [<-|[<-|[<-|[]]]]; reflexivity. }
  split.
  { intros fs [<-|[]]. split; [intros f [<-|[<-|[<-|[<-|[]]]]]; discriminate|].
    vm_compute. repeat (constructor; [cbn; intuition discriminate|]). constructor. }
  split; [reflexivity|]. split; [intros fs [<-|[]]; exact struct_replaceable|]. discriminate.
Qed.
Example C60_enum_example : let it := ItEnum (enum_ex args_enum) in
  exists e, parse_derive it = Ok e /\ options (attrs_of it) opts_enum /\ ordered (params_of it) /\
  (forall fs, In fs (fields_of it) -> fields_legal fs) /\ has_proj POwn it opts_enum = false /\
  ar_pinned_drop opts_enum = true.
Proof.
  intros it. eexists. split; [vm_compute; reflexivity|]. split; [apply parse_args_iff; vm_compute; reflexivity|]. split.
  { exists []. eexists. split; [reflexivity|]. split; [intros p []|]. intros p [<-|[]]. reflexivity. }
  split.
  { intros fs [<-|[<-|[<-|[]]]].
    - intros f [<-|[<-|[]]]; reflexivity.
    - split; [intros f [<-|[]]; discriminate|]. vm_compute. repeat (constructor; [cbn; intuition discriminate|]). constructor.
    - exact Logic.I. }
  split; reflexivity.
Qed.
(** [#[pin_project(project_replace)] struct S { #[pin] __result: u8 }] *)
Example C60_replace_example : exists e, parse_derive f4_item = Ok e /\
  ~ forall o, In o (all_items e) -> well_typed (fun _ => True) f4_item e o.
Proof.
  eexists. split; [vm_compute; reflexivity|].
  match goal with |- ~ (forall o, In o (all_items ?e) -> _) => assert (He : parse_derive f4_item = Ok e) by (vm_compute; reflexivity) end.
  rewrite (C60_replace f4_item _ (mkArgs false UDefault None None PRUnnamed) (fun _ => True) He).
  - intros H. destruct (H _ (or_introl eq_refl)) as [H1 _].
    apply (H1 (one_field "__result" true) (I "__result")); [left|..]; reflexivity.
  - apply parse_args_iff; vm_compute; reflexivity.
  - exists []. exists []. split; [reflexivity|]. split; intros p [].
  - intros fs [<-|[]]. split; [intros f [<-|[]]; discriminate|]. vm_compute. repeat (constructor; [cbn; intuition discriminate|]). constructor.
  - discriminate.
  - reflexivity.
Qed.
