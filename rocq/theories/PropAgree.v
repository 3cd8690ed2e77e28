(** C82: the three projections of a value agree with each other. *)
From Coq Require Import String Ascii List Bool Arith.
From Verif Require Import Base Syntax ModelArgs ModelUtils ModelDerive ModelRun.
From Verif Require Import SpecArgs SpecDerive SpecExpand SpecRun SpecAgree.
From Verif Require Import ProofsAgree Examples ExamplesRun.
Import ListNotations.
Open Scope string_scope.
Open Scope list_scope.

Theorem C82_project_ref : forall w a u vp fs t,
  program w a -> has_proj PMut (w_item w) a = true -> has_proj PRef (w_item w) a = true -> value_of (w_item w) u vp fs ->
  exists n n' l l',
    call_method w "project" (RPin true PlSelf) [] (holding u t Run) = Some (Some (RProj (n :: vp) l), holding u t Run) /\
    call_method w "project_ref" (RPin false PlSelf) [] (holding u t Run) = Some (Some (RProj (n' :: vp) l'), holding u t Run) /\
    Forall2 agree_ref l l' /\ length l = length (u_ids u).
Proof. exact c82_ref. Qed.
Print Assumptions C82_project_ref.

Theorem C82_project_replace : forall w a u vp fs t r,
  program w a -> has_proj PMut (w_item w) a = true -> has_proj POwn (w_item w) a = true -> value_of (w_item w) u vp fs ->
  replaceable fs -> panickers w (select true fs (u_ids u)) = 0 ->
  exists n n' l l' s,
    call_method w "project" (RPin true PlSelf) [] (holding u t Run) = Some (Some (RProj (n :: vp) l), holding u t Run) /\
    call_method w "project_replace" (RPin true PlSelf) [RUser r] (holding u t Run) = Some (Some (RProj (n' :: vp) l'), s) /\
    Forall2 (agree_own (u_ids u)) l l'.
Proof. exact c82_own. Qed.
Print Assumptions C82_project_replace.

Example C82_example : program (world_struct [2] false) opts_struct /\
  (forall k, has_proj k (w_item (world_struct [2] false)) opts_struct = true) /\
  value_of (w_item (world_struct [2] false)) value_struct [] (FNamed fields_ex) /\ replaceable (FNamed fields_ex) /\
  panickers (world_struct [2] false) (select true (FNamed fields_ex) (u_ids value_struct)) = 0 /\
  ~ agree_own (u_ids value_struct) (Some (I "b"), RRef true (PlField 1)) (Some (I "b"), RVal 4) /\
  ~ agree_ref (Some (I "b"), RRef true (PlField 1)) (Some (I "b"), RRef false (PlField 3)).
Proof.
  split; [apply world_struct_program|]. split; [intros []; reflexivity|]. split; [apply value_struct_ok|].
  split; [apply struct_replaceable|]. split; [vm_compute; reflexivity|]. split; intros H; inversion H; discriminate.
Qed.
