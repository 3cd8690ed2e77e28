(** C21, C22: histories of safe operations on a pinned value. *)
From Coq Require Import String Ascii List Bool Arith Permutation.
From Verif Require Import Base Syntax ModelArgs ModelUtils ModelDerive ModelRun ModelHistory.
From Verif Require Import SpecArgs SpecDerive SpecExpand SpecRun SpecHistory.
From Verif Require Import ProofsHistory Examples ExamplesRun ExamplesHistory.
Import ListNotations.
Open Scope list_scope.

(** ** C21: whatever happens after a value is in a pinned field, its memory is
    untouched until its destructor runs there (or forever, or until the process
    aborts). *)
Theorem C21_pinned_until_dropped : forall w a h h' i id,
  program w a -> history w h -> pinned_at w h i id -> steps w h h' ->
  exists evs, trace h' = trace h ++ evs /\
    ((Forall (untouched i id) evs /\ (pinned_at w h' i id \/ aborted h')) \/
     (exists e1 e2, evs = e1 ++ EvDrop (PlField i) id :: e2 /\ Forall (untouched i id) e1)).
Proof. exact c21. Qed.
Print Assumptions C21_pinned_until_dropped.
Example C21_example : program w3 opts_struct /\ history w3 before_ex /\ pinned_at w3 before_ex 2 3 /\ steps w3 before_ex replaced_ex /\
  trace replaced_ex = trace before_ex ++
    [EvDrop (PlField 0) 1; EvStore 0 9; EvRead 1 2; EvStore 1 10; EvRead 1 10; EvRead 3 4; EvDrop (PlField 0) 9] ++
    EvDrop (PlField 2) 3 :: [EvDrop PlTemp 10; EvDrop PlTemp 4; EvWrite other_struct].
Proof.
  split; [apply world_struct_program|]. split; [apply history_before|]. split; [|split; [apply replaced_steps|reflexivity]].
  eexists _, value_struct, [], (FNamed fields_ex). split; [reflexivity|]. split; [reflexivity|]. split; [apply value_struct_item|].
  split; [reflexivity|]. split; reflexivity.
Qed.

(** ** C22 *)
Theorem C22_destroyed_once : forall w a h, program w a -> history w h ->
  NoDup (destroyed (trace h)) /\ incl (destroyed (trace h)) (h_created h).
Proof. exact c22_once. Qed.
Print Assumptions C22_destroyed_once.
(** Unless the process aborted: every value is stored in place, on its way
    there, owned by the caller, or destroyed; and the pinned place is complete
    or, after the drop, empty. *)
Theorem C22_accounted : forall w a h, program w a -> history w h -> aborted h \/
  (s_stat (h_st h) = Run /\ NoDup (h_created h) /\
   Permutation (h_created h) (stored (h_st h) ++ incoming h ++ h_owned h ++ destroyed (trace h)) /\
   (h_alive h = true -> forall o, In o (s_slots (h_st h)) -> o <> None) /\ (h_alive h = false -> stored (h_st h) = [])).
Proof. exact c22_all. Qed.
Print Assumptions C22_accounted.
Example C22_example : program w3 opts_struct /\ history w3 dropped_ex /\ h_alive dropped_ex = false /\
  destroyed (trace dropped_ex) = [1; 9; 3; 10; 4; 5; 6; 7; 8] /\ h_owned dropped_ex = [2].
Proof. split; [apply world_struct_program|]. split; [apply history_dropped|]. repeat split. Qed.
