(** C52: generated code takes no names from the scope around it, except those the
    user wrote. *)
From Coq Require Import String List Bool.
From Verif Require Import Base Syntax ModelArgs ModelUtils ModelDerive.
From Verif Require Import SpecArgs SpecDerive SpecExpand SpecRun SpecMeaning SpecTraits SpecScope.
From Verif Require Import ProofsScope Examples.
Import ListNotations.
Open Scope string_scope.
Open Scope list_scope.

(** What is generated next to the item refers only to the item and to what the
    item itself refers to: not to the prelude, not to other names in scope, and
    not to what is hidden inside [const _]. *)
Theorem C52_exposed : forall it e o x,
  parse_derive it = Ok e -> self_legal (nodes_item it) -> In o (exposed e) -> refers o x -> user_name it x.
Proof. exact c52_exposed. Qed.
Print Assumptions C52_exposed.

(** What is generated inside [const _] refers moreover to what the expansion
    itself introduces, and to nothing else. *)
Theorem C52_hidden : forall it e o x,
  parse_derive it = Ok e -> self_legal (nodes_item it) -> In o (scoped e) -> refers o x ->
  user_name it x \/ In x (map name (flat_map introduces (all_items e))).
Proof. exact c52_scoped. Qed.
Print Assumptions C52_hidden.

Example C52_example :
  (exists e o, parse_derive (ItStruct (struct_ex args_struct)) = Ok e /\ self_legal (nodes_item (ItStruct (struct_ex args_struct))) /\
    In o (exposed e) /\ refers o "Vec" /\ In o (exposed e) /\ refers o "Foo") /\
  (exists e o, parse_derive (ItEnum (enum_ex args_enum)) = Ok e /\ self_legal (nodes_item (ItEnum (enum_ex args_enum))) /\
    In o (scoped e) /\ refers o "_pin_project" /\ refers o "Ref").
Proof.
  split.
  - eexists. eexists. split; [vm_compute; reflexivity|]. split; [apply no_self_legal; vm_compute; reflexivity|].
    split; [left; reflexivity|]. split; [|split; [left; reflexivity|]].
    + split; [exists None, (I "Vec"), []; split; [vm_compute; tauto|split; [discriminate|reflexivity]]|].
      split; [discriminate|]. vm_compute. intuition discriminate.
    + split; [exists None, (I "Foo"), []; split; [vm_compute; tauto|split; [discriminate|reflexivity]]|].
      split; [discriminate|]. vm_compute. intuition discriminate.
  - eexists. eexists. split; [vm_compute; reflexivity|]. split; [apply no_self_legal; vm_compute; reflexivity|].
    split; [right; left; reflexivity|]. split.
    + split; [|split; [discriminate|vm_compute; intuition discriminate]].
      eexists None, (I "_pin_project"), _. split; [vm_compute; tauto|split; [discriminate|reflexivity]].
    + split; [|split; [discriminate|vm_compute; intuition discriminate]].
      exists None, (I "Ref"), [I "A"]. split; [vm_compute; tauto|split; [discriminate|reflexivity]].
Qed.
