(** C67: [project_replace] is [Pin::set], except that the unpinned fields are moved
    and returned instead of being dropped in place. *)
From Coq Require Import String Ascii List Bool Arith Permutation.
From Verif Require Import Base Syntax ModelArgs ModelUtils ModelDerive ModelRun.
From Verif Require Import SpecArgs SpecDerive SpecExpand SpecRun SpecSet.
From Verif Require Import ProofsSet Examples ExamplesRun.
Import ListNotations.
Open Scope string_scope.
Open Scope list_scope.

(** Dropping the result at once: the same status (normal, panicking, aborted), the
    same contents of [*self] and the same destructors run as with [Pin::set]; the
    pinned fields are destroyed in place in the same order, and no other field is
    destroyed in place. *)
Theorem C67_equivalent : forall w a u vp fs t r,
  program w a -> has_proj POwn (w_item w) a = true -> value_of (w_item w) u vp fs -> replaceable fs ->
  let set := pin_set w r (holding u t Run) in
  exists s, replace_and_drop w r (holding u t Run) = Some s /\ s_stat s = s_stat set /\ s_stat s <> Stuck /\
    (s_stat s <> Abort -> s_var s = s_var set /\ s_slots s = s_slots set /\
       exists ev1 ev2, s_trace s = t ++ ev1 /\ s_trace set = t ++ ev2 /\ Permutation (destroyed ev1) (destroyed ev2) /\
         destroyed_in_place ev1 = filter (pinned_at fs) (destroyed_in_place ev2)).
Proof. exact c67_equivalent. Qed.
Print Assumptions C67_equivalent.

(** The call itself: [*self] is as after [Pin::set], only the pinned fields have
    been destroyed, and the result owns what else [Pin::set] destroys. *)
Theorem C67_returned : forall w a u vp fs t r v s,
  program w a -> has_proj POwn (w_item w) a = true -> value_of (w_item w) u vp fs -> replaceable fs ->
  call_method w "project_replace" (RPin true PlSelf) [RUser r] (holding u t Run) = Some (Some v, s) ->
  let set := pin_set w r (holding u t Run) in
  s_stat set <> Abort -> s_var s = s_var set /\ s_slots s = s_slots set /\
    exists ev1 ev2, s_trace s = t ++ ev1 /\ s_trace set = t ++ ev2 /\
      destroyed ev1 = map snd (filter (pinned_at fs) (destroyed_in_place ev2)) /\
      destroyed_in_place ev1 = filter (pinned_at fs) (destroyed_in_place ev2) /\
      owned v = map snd (filter (fun x => negb (pinned_at fs x)) (destroyed_in_place ev2)).
Proof. exact c67_returned. Qed.
Print Assumptions C67_returned.

Example C67_example : program (world_struct [] false) opts_struct /\ has_proj POwn (w_item (world_struct [] false)) opts_struct = true /\
  replaceable (FNamed fields_ex) /\
  pin_set (world_struct [] false) other_struct (holding value_struct [] Run) =
    holding other_struct [EvDrop (PlField 0) 1; EvDrop (PlField 1) 2; EvDrop (PlField 2) 3; EvDrop (PlField 3) 4; EvWrite other_struct] Run /\
  replace_and_drop (world_struct [] false) other_struct (holding value_struct [] Run) =
    Some (holding other_struct [EvRead 1 2; EvRead 3 4; EvDrop (PlField 0) 1; EvDrop (PlField 2) 3; EvWrite other_struct;
                                EvDrop PlTemp 2; EvDrop PlTemp 4] Run).
Proof.
  split; [apply world_struct_program|]. split; [reflexivity|]. split; [apply struct_replaceable|]. split; vm_compute; reflexivity.
Qed.
(** The destructors of the unpinned field 2, or of it and the pinned field 3, panic. *)
Example C67_panics :
  (let w := world_struct [2] false in program w opts_struct /\ s_stat (pin_set w other_struct (holding value_struct [] Run)) = Unwind /\
     option_map s_stat (replace_and_drop w other_struct (holding value_struct [] Run)) = Some Unwind) /\
  (let w := world_struct [2; 3] false in program w opts_struct /\ s_stat (pin_set w other_struct (holding value_struct [] Run)) = Abort /\
     option_map s_stat (replace_and_drop w other_struct (holding value_struct [] Run)) = Some Abort).
Proof. split; (split; [apply world_struct_program|split; vm_compute; reflexivity]). Qed.
