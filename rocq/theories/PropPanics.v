(** C19, C23, C25: exactly which destructors run when some of them panic. *)
From Coq Require Import String List Bool Arith.
From Verif Require Import Base Syntax ModelArgs ModelUtils ModelDerive ModelRun.
From Verif Require Import SpecArgs SpecDerive SpecExpand SpecRun SpecPanics.
From Verif Require Import ProofsPanics Examples ExamplesRun.
Import ListNotations.
Open Scope string_scope.
Open Scope list_scope.

(** ** C19: the calls of the destructors up to the second panic; then
    the replacement is stored, unless the process aborted. *)
Theorem C19_exact : forall w a u vp fs t r,
  program w a -> has_proj POwn (w_item w) a = true -> value_of (w_item w) u vp fs -> replaceable fs ->
  1 <= panickers w (select true fs (u_ids u)) ->
  let made := calls (bad_call w t)
    (map dropped_in_place (select true fs (u_ids u)) ++ map dropped_elsewhere (select false fs (u_ids u))) Run in
  exists s, call_method w "project_replace" (RPin true PlSelf) [RUser r] (holding u t Run) = Some (None, s) /\
    s_stat s = snd made /\
    s_trace s = t ++ map read_out (select false fs (u_ids u)) ++ fst made ++
      match snd made with Abort => [] | _ => [EvWrite r] end.
Proof. exact c19_exact. Qed.
Print Assumptions C19_exact.
Example C19_exact_example : program (world_struct [3; 2] false) opts_struct /\
  1 <= panickers (world_struct [3; 2] false) (select true (FNamed fields_ex) (u_ids value_struct)) /\
  calls (bad_call (world_struct [3; 2] false) [])
    (map dropped_in_place (select true (FNamed fields_ex) (u_ids value_struct)) ++
     map dropped_elsewhere (select false (FNamed fields_ex) (u_ids value_struct))) Run =
  ([EvDrop (PlField 0) 1; EvDrop (PlField 2) 3; EvDrop PlTemp 2], Abort).
Proof. split; [apply world_struct_program|]. split; [vm_compute; repeat constructor|vm_compute; reflexivity]. Qed.

(** ** C23 *)
Theorem C23_exact : forall w a u t x,
  program w a -> ar_pinned_drop a = true -> x = Run \/ x = Unwind ->
  let made := calls (bad_call w t) (EvBody PlSelf :: map dropped_in_place (all_fields u)) x in
  s_trace (drop_self w (holding u t x)) = t ++ fst made /\ s_stat (drop_self w (holding u t x)) = snd made.
Proof. exact c23_exact. Qed.
Print Assumptions C23_exact.
Theorem C23_exact_elsewhere : forall w a u s,
  program w a -> ar_pinned_drop a = true -> s_stat s = Run \/ s_stat s = Unwind ->
  let made := calls (bad_call w (s_trace s)) (EvBody PlTemp :: map dropped_elsewhere (all_fields u)) (s_stat s) in
  drop_user w u s = mkSt (s_var s) (s_slots s) (s_trace s ++ fst made) (snd made).
Proof. exact c23_exact_elsewhere. Qed.
Print Assumptions C23_exact_elsewhere.
Example C23_exact_example : program (world_enum [1] true) opts_enum /\ ar_pinned_drop opts_enum = true /\
  calls (bad_call (world_enum [1] true) []) (EvBody PlSelf :: map dropped_in_place (all_fields value_a)) Run =
  ([EvBody PlSelf; EvDrop (PlField 0) 1], Abort).
Proof. split; [apply world_enum_program|]. split; reflexivity. Qed.

(** ** C25 *)
Theorem C25_exact : forall w a u t x,
  program w a -> ar_pinned_drop a = false -> x = Run \/ x = Unwind ->
  let made := calls (bad_call w t) (map dropped_in_place (all_fields u)) x in
  s_trace (drop_self w (holding u t x)) = t ++ fst made /\ s_stat (drop_self w (holding u t x)) = snd made.
Proof. exact c25_exact. Qed.
Print Assumptions C25_exact.
Theorem C25_exact_elsewhere : forall w a u s,
  program w a -> ar_pinned_drop a = false -> s_stat s = Run \/ s_stat s = Unwind ->
  let made := calls (bad_call w (s_trace s)) (map dropped_elsewhere (all_fields u)) (s_stat s) in
  drop_user w u s = mkSt (s_var s) (s_slots s) (s_trace s ++ fst made) (snd made).
Proof. exact c25_exact_elsewhere. Qed.
Print Assumptions C25_exact_elsewhere.
Example C25_exact_example : program (world_struct [2; 3] false) opts_struct /\ ar_pinned_drop opts_struct = false /\
  calls (bad_call (world_struct [2; 3] false) []) (map dropped_in_place (all_fields value_struct)) Run =
  ([EvDrop (PlField 0) 1; EvDrop (PlField 1) 2; EvDrop (PlField 2) 3], Abort).
Proof. split; [apply world_struct_program|]. split; reflexivity. Qed.
