(** C73: destroying values of pin-projected types inside values of pin-projected types. *)
From Coq Require Import String List Bool Arith.
From Verif Require Import Base Syntax ModelArgs ModelRun ModelDestroy.
From Verif Require Import SpecRun SpecPanics SpecDestroy ProofsPanics ProofsDestroy Examples ExamplesRun ExamplesDestroy.
Import ListNotations.
Open Scope list_scope.

(** What happens are the calls of the destructors, outside in and in declaration
    order, up to the second panic, which aborts. *)
Theorem C73_in_order : forall opts t, declared opts t -> forall path x,
  destroy path t x = (map fst (fst (calls snd (in_order opts path t) x)), snd (calls snd (in_order opts path t) x)).
Proof. exact c73. Qed.
Print Assumptions C73_in_order.

(** For any list of calls: all of them are made, or the process aborts; it ends
    normally if none of them panics, by unwinding if one does (or if the stack
    was being unwound), and aborts otherwise. *)
Theorem C73_all_or_abort : forall (l : list (visit * bool)) x, exists rest, l = fst (calls snd l x) ++ rest /\
  (x = Run \/ x = Unwind -> snd (calls snd l x) <> Abort -> rest = []).
Proof. exact (calls_prefix snd). Qed.
Print Assumptions C73_all_or_abort.
Theorem C73_number_of_panics : forall (l : list (visit * bool)) x, x = Run \/ x = Unwind ->
  snd (calls snd l x) = stat_after (length (filter snd l) + match x with Unwind => 1 | _ => 0 end).
Proof. exact (calls_stat snd). Qed.
Print Assumptions C73_number_of_panics.

(** No destructor runs twice, at any depth. *)
Theorem C73_once : forall opts t path x, declared opts t -> NoDup (fst (destroy path t x)).
Proof. exact c73_once. Qed.
Print Assumptions C73_once.

(** Unless the process aborts, exactly the values with a destructor are visited,
    [PinnedDrop::drop] on the value where it is. *)
Theorem C73_everyone : forall opts t x, declared opts t -> x = Run \/ x = Unwind -> snd (destroy [] t x) <> Abort ->
  forall v, In v (fst (destroy [] t x)) <->
    match v with
    | VPlain q => exists p, value_at t q = Some (Plain p)
    | VEvent q e => e = EvBody PlSelf /\
        exists w u kids, value_at t q = Some (Projected w u kids) /\ ar_pinned_drop (opts w) = true
    end.
Proof. exact c73_who. Qed.
Print Assumptions C73_everyone.

(** For a value without nested ones this is the destruction of C23 and C25. *)
Theorem C73_one_level : forall opts w v ps x, program w (opts w) -> x = Run \/ x = Unwind ->
  (forall n p, nth_error ps n = Some p -> w_panics w n = p) ->
  let s := drop_self w (holding (mkUval v (seq 0 (length ps))) [] x) in
  let r := destroy [] (Projected w v (map Plain ps)) x in
  s_stat s = snd r /\
  s_trace s = map (fun v => match v with VPlain q => EvDrop (PlField (hd 0 q)) (hd 0 q) | VEvent _ e => e end) (fst r).
Proof. exact c73_one_level. Qed.
Print Assumptions C73_one_level.

Example C73_quiet : declared opts_of (nested false false false) /\ destroy [] (nested false false false) Run =
  ([VEvent [0] (EvBody PlSelf); VPlain [0; 0]; VEvent [0; 1] (EvBody PlSelf); VPlain [0; 1; 0];
    VPlain [1]; VEvent [2] (EvBody PlSelf); VPlain [3]], Run).
Proof. split; [apply nested_declared|vm_compute; reflexivity]. Qed.
(** A panic in the outer [PinnedDrop::drop]: the rest still runs. *)
Example C73_panic : declared opts_of (nested true false false) /\ destroy [] (nested true false false) Run =
  ([VEvent [0] (EvBody PlSelf); VPlain [0; 0]; VEvent [0; 1] (EvBody PlSelf); VPlain [0; 1; 0];
    VPlain [1]; VEvent [2] (EvBody PlSelf); VPlain [3]], Unwind).
Proof. split; [apply nested_declared|vm_compute; reflexivity]. Qed.
(** A second one two levels down: the process aborts. *)
Example C73_abort : declared opts_of (nested true true false) /\ destroy [] (nested true true false) Run =
  ([VEvent [0] (EvBody PlSelf); VPlain [0; 0]; VEvent [0; 1] (EvBody PlSelf)], Abort).
Proof. split; [apply nested_declared|vm_compute; reflexivity]. Qed.
Example C73_one_level_example : program (world_enum [1] true) opts_enum /\
  s_trace (drop_self (world_enum [1] true) (holding (mkUval (Some (I "A")) [0; 1]) [] Run)) =
  [EvBody PlSelf; EvDrop (PlField 0) 0; EvDrop (PlField 1) 1].
Proof. split; [apply world_enum_program|vm_compute; reflexivity]. Qed.
