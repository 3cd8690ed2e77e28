(** C64: options do not influence each other. *)
From Coq Require Import String Ascii List Bool.
From Verif Require Import Base Syntax ModelArgs ModelUtils ModelDerive.
From Verif Require Import SpecArgs SpecDerive SpecExpand SpecRun SpecInterfere.
From Verif Require Import ProofsDerive ProofsInterfere Examples.
Import ListNotations.
Open Scope string_scope.
Open Scope list_scope.

Theorem C64_method : forall it it' e e' a a' k m,
  same_item it it' -> parse_derive it = Ok e -> parse_derive it' = Ok e' ->
  options (attrs_of it) a -> options (attrs_of it') a' ->
  has_proj k it a = true -> has_proj k it' a' = true -> given_name k a = given_name k a' ->
  m_name m = proj_method k -> (In m (inherent_methods e) <-> In m (inherent_methods e')).
Proof. exact c64_method. Qed.
Print Assumptions C64_method.

Theorem C64_type : forall it it' e e' a a' k,
  same_item it it' -> parse_derive it = Ok e -> parse_derive it' = Ok e' ->
  options (attrs_of it) a -> options (attrs_of it') a' ->
  has_proj k it a = true -> has_proj k it' a' = true -> given_name k a = given_name k a' ->
  same_items (fun o => defines o (proj_name k a (name_of it))) (home k a e) (home k a' e').
Proof. exact c64_type. Qed.
Print Assumptions C64_type.

Theorem C64_unpin : forall it it' e e' a a' tr,
  same_item it it' -> parse_derive it = Ok e -> parse_derive it' = Ok e' ->
  options (attrs_of it) a -> options (attrs_of it') a' ->
  ar_unpin a = ar_unpin a' -> tr = support ["__private"; "Unpin"] \/ tr = support ["UnsafeUnpin"] ->
  same_items (is_impl_of tr) (all_items e) (all_items e').
Proof. exact c64_unpin. Qed.
Print Assumptions C64_unpin.

Theorem C64_helper : forall it it' e e' a a',
  same_item it it' -> parse_derive it = Ok e -> parse_derive it' = Ok e' ->
  options (attrs_of it) a -> options (attrs_of it') a' ->
  ar_unpin a = ar_unpin a' ->
  same_items (fun o => defines o (helper_name (name_of it))) (scoped e) (scoped e').
Proof. exact c64_helper. Qed.
Print Assumptions C64_helper.

(** Every other impl of a trait has to do with destructors. *)
Theorem C64_drop : forall it it' e e' a a' tr,
  same_item it it' -> parse_derive it = Ok e -> parse_derive it' = Ok e' ->
  options (attrs_of it) a -> options (attrs_of it') a' ->
  ar_pinned_drop a = ar_pinned_drop a' -> tr <> support ["__private"; "Unpin"] -> tr <> support ["UnsafeUnpin"] ->
  same_items (is_impl_of tr) (all_items e) (all_items e').
Proof. exact c64_drop. Qed.
Print Assumptions C64_drop.

Theorem C64_packed : forall it it' e e',
  same_item it it' -> parse_derive it = Ok e -> parse_derive it' = Ok e' ->
  same_items is_packed_check (all_items e) (all_items e').
Proof. exact c64_packed. Qed.
Print Assumptions C64_packed.

(** The same struct with [project = Proj, project_replace = Own, !Unpin] and with
    [project = Proj, PinnedDrop, project_ref = Ref]: the first and the last line below
    are the conditions for [project]; the methods are there and are not all the same. *)
Example C64_example : exists e e' m,
  same_item (ItStruct (struct_ex args_struct)) (ItStruct (struct_ex args_enum)) /\
  parse_derive (ItStruct (struct_ex args_struct)) = Ok e /\ parse_derive (ItStruct (struct_ex args_enum)) = Ok e' /\
  options (s_attrs (struct_ex args_struct)) opts_struct /\ options (s_attrs (struct_ex args_enum)) opts_enum /\
  m_name m = proj_method PMut /\ In m (inherent_methods e) /\ In m (inherent_methods e') /\
  map m_name (inherent_methods e) = map I ["project"; "project_ref"; "project_replace"] /\
  map m_name (inherent_methods e') = map I ["project"; "project_ref"] /\
  given_name PMut opts_struct = given_name PMut opts_enum.
Proof.
  do 3 eexists. split; [constructor|]. split; [vm_compute; reflexivity|]. split; [vm_compute; reflexivity|].
  split; [apply parse_args_iff; vm_compute; reflexivity|]. split; [apply parse_args_iff; vm_compute; reflexivity|].
  split; [|split; [left; reflexivity|split; [left; reflexivity|]]]; [reflexivity|].
  repeat split; vm_compute; reflexivity.
Qed.

(** With [Unpin] left alone: the same enum with [project = Proj, PinnedDrop, project_ref = Ref]
    and with [project = P]; the impls of [Unpin] agree, those of [Drop] need not. *)
Example C64_unpin_example : exists e e' im,
  same_item (ItEnum (enum_ex args_enum))
    (ItEnum (enum_ex [TIdent (I "project"); TPunct "=" false; TIdent (I "P")])) /\
  parse_derive (ItEnum (enum_ex args_enum)) = Ok e /\
  parse_derive (ItEnum (enum_ex [TIdent (I "project"); TPunct "=" false; TIdent (I "P")])) = Ok e' /\
  In (OImpl im) (all_items e) /\ In (OImpl im) (all_items e') /\ i_trait im = Some (support ["__private"; "Unpin"]) /\
  map i_trait (flat_map (fun o => match o with OImpl i => [i] | _ => [] end) (all_items e)) <>
  map i_trait (flat_map (fun o => match o with OImpl i => [i] | _ => [] end) (all_items e')).
Proof.
  do 3 eexists. split; [constructor|]. split; [vm_compute; reflexivity|]. split; [vm_compute; reflexivity|].
  split; [do 5 right; left; reflexivity|]. split; [do 4 right; left; reflexivity|]. split; [reflexivity|]. vm_compute. discriminate.
Qed.
