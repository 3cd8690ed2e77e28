(** C58: lint levels in generated code. *)
From Coq Require Import String List Bool.
From Verif Require Import Base Syntax ModelArgs ModelUtils ModelDerive ModelLints.
From Verif Require Import SpecArgs SpecDerive SpecExpand SpecRun SpecLints.
From Verif Require Import ProofsDerive ProofsLints Examples.
Import ListNotations.
Open Scope string_scope.
Open Scope list_scope.

(** Every generated item has its attributes. *)
Theorem C58_complete : forall it e, parse_derive it = Ok e ->
  exists me, parse_derive_marked it = Ok me /\ map fst (me_exposed me) = exposed e /\ map fst (me_scoped me) = scoped e.
Proof. exact c58_complete. Qed.
Print Assumptions C58_complete.

(** Whatever the levels are where the item stands: in every generated item the
    lints that generated code may set off are off, unless they are forbidden. *)
Theorem C58_silent : forall it me lv o lv' x,
  parse_derive_marked it = Ok me -> In (o, lv') (places lv me) -> In x everywhere -> lv x <> Forbid -> lv' x = Allow.
Proof. exact c58_silent. Qed.
Print Assumptions C58_silent.

(** In projected types more of them are. *)
Theorem C58_projected : forall it me a k lv,
  parse_derive_marked it = Ok me -> options (attrs_of it) a -> has_proj k it a = true ->
  exists o lv', In (o, lv') (places lv me) /\ type_named o (proj_name k a (name_of it)) /\
    forall x, In x (of_projected k (kind_of it)) -> lv x <> Forbid -> lv' x = Allow.
Proof. exact c58_projected. Qed.
Print Assumptions C58_projected.

(** A projection method that nobody calls is not reported. *)
Theorem C58_methods : forall it me lv im lv',
  parse_derive_marked it = Ok me -> In (im, lv') (method_places lv me) -> i_trait im = None ->
  lv ["dead_code"] <> Forbid -> lv' ["dead_code"] = Allow.
Proof. exact c58_methods. Qed.
Print Assumptions C58_methods.

(** A reference to a field of a packed struct is an error in the generated
    assertion, whatever the levels are around it; elsewhere these lints keep
    their levels. *)
Theorem C58_packed : forall it me lv o lv' x,
  parse_derive_marked it = Ok me -> In (o, lv') (places lv me) -> In x packed_lints ->
  match o with OAssert _ _ _ => lv' x = Forbid | _ => lv' x = lv x end.
Proof. exact c58_packed. Qed.
Print Assumptions C58_packed.

(** All other lints keep their levels in all generated code. *)
Theorem C58_others : forall it me lv x,
  parse_derive_marked it = Ok me -> ~ In x lowered -> ~ In x packed_lints ->
  (forall o lv', In (o, lv') (places lv me) -> lv' x = lv x) /\
  (forall im lv', In (im, lv') (method_places lv me) -> lv' x = lv x).
Proof. exact c58_others. Qed.
Print Assumptions C58_others.

(** The generated attributes are in conflict with a [forbid] around the item only
    if it forbids one of the lints they lower; if it forbids one that generated
    code in general may set off, they always are. *)
Theorem C58_compatible : forall it me lv,
  parse_derive_marked it = Ok me -> (forall x, In x lowered -> lv x <> Forbid) -> ~ refused lv me.
Proof. exact c58_refused. Qed.
Print Assumptions C58_compatible.
Theorem C58_incompatible : forall it me lv x,
  parse_derive_marked it = Ok me -> In x (everywhere ++ inside_const) -> lv x = Forbid -> refused lv me.
Proof. exact c58_forbidden. Qed.
Print Assumptions C58_incompatible.

Example C58_example : exists me o lv' im lm,
  let lv x := if list_eq_dec string_dec x ["unsafe_code"] then Forbid else Deny in
  parse_derive_marked (ItStruct (struct_ex args_struct)) = Ok me /\ In (o, lv') (places lv me) /\
  (exists g t ms, o = OAssert g t ms) /\ lv' ["deprecated"] = Allow /\ lv' ["safe_packed_borrows"] = Forbid /\
  lv' ["unused_mut"] = Deny /\ In (im, lm) (method_places lv me) /\ i_trait im = None /\ lm ["dead_code"] = Allow /\
  options (attrs_of (ItStruct (struct_ex args_struct))) opts_struct /\
  has_proj POwn (ItStruct (struct_ex args_struct)) opts_struct = true /\
  ~ refused lv me /\ refused (fun _ => Forbid) me.
Proof.
  eexists. eexists. eexists. eexists. eexists. intros lv. split; [vm_compute; reflexivity|].
  split; [unfold places; cbn [me_exposed me_scoped map app]; do 5 right; left; reflexivity|].
  split; [eexists; eexists; eexists; reflexivity|]. split; [reflexivity|]. split; [reflexivity|]. split; [reflexivity|].
  split; [unfold method_places; cbn [me_exposed me_scoped flat_map methods_at fst app]; left; reflexivity|].
  split; [reflexivity|]. split; [reflexivity|]. split; [apply parse_args_iff; vm_compute; reflexivity|].
  split; [reflexivity|]. split.
  - apply (c58_refused (ItStruct (struct_ex args_struct))); [vm_compute; reflexivity|]. intros x Hx E. unfold lv in E.
    destruct (list_eq_dec string_dec x ["unsafe_code"]); [|discriminate E]. subst x. revert Hx. vm_compute. intuition discriminate.
  - apply (c58_forbidden (ItStruct (struct_ex args_struct)) _ _ ["deprecated"]); [vm_compute; reflexivity|left; reflexivity|reflexivity].
Qed.
