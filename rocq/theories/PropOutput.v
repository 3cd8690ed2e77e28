(** C62: the tokens that the derive emits are Rust items. *)
From Coq Require Import String List Bool.
From Verif Require Import Base Syntax ModelArgs ModelUtils ModelDerive ModelLints ModelPrint.
From Verif Require Import SpecArgs SpecParse SpecItems SpecOutput.
From Verif Require Import ProofsOutput Examples.
Import ListNotations.
Open Scope string_scope.
Open Scope list_scope.

(** Reading the printed output gives the generated items. *)
Theorem C62_reads_back : forall it e,
  parse_derive_marked it = Ok e -> source_item it = true -> parses_item it = true -> without_pub_self it = true ->
  gives_output (print_expansion e) (shown_output e).
Proof. exact output_reads. Qed.
Print Assumptions C62_reads_back.

(** It can be read in no other way. *)
Theorem C62_only_reading : forall ts o o', gives_output ts o -> gives_output ts o' -> o = o'.
Proof. exact output_unique. Qed.
Print Assumptions C62_only_reading.

(** Without the condition on [pub(self)] this is false (finding F7). *)
Theorem C62_pub_self_refuted : exists it e,
  parse_derive_marked it = Ok e /\ source_item it = true /\ parses_item it = true /\
  forall o, ~ gives_output (print_expansion e) o.
Proof. exact pub_self_unread. Qed.
Print Assumptions C62_pub_self_refuted.

(** A generic struct with two named projections and negative [Unpin], and an enum with a destructor. *)
Example C62_example :
  Forall (fun it => exists e, parse_derive_marked it = Ok e /\ source_item it = true /\ parses_item it = true /\
    without_pub_self it = true /\ read_output 40 40 (print_expansion e) = Some (shown_output e) /\
    2 <= length (ro_outer (shown_output e)) /\ 5 <= length (ro_inner (shown_output e)))
  [ItStruct (struct_ex args_struct); ItEnum (enum_ex args_enum)].
Proof.
  repeat constructor; (eexists; split; [vm_compute; reflexivity|]; do 3 (split; [reflexivity|]); split; [vm_compute; reflexivity|];
    split; vm_compute; repeat constructor).
Qed.
