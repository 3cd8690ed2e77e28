(** Vocabulary for the properties of histories. *)
From Coq Require Import String Ascii List Bool Arith Permutation.
From Verif Require Import Base Syntax ModelArgs ModelDerive ModelRun ModelHistory SpecRun.
Import ListNotations.
Open Scope list_scope.

(** A history of safe operations on a value that is pinned. *)
Definition history (w : world) (h : hist) : Prop :=
  exists u vp fs, value_of (w_item w) u vp fs /\ NoDup (u_ids u) /\ steps w (begin u) h.

Definition trace (h : hist) : list event := s_trace (h_st h).
Definition aborted (h : hist) : Prop := s_stat (h_st h) = Abort.

(** The value [id] is in field [i] of the pinned value; the declaration [f] of
    that field (in the variant that the value has) is marked [#[pin]]. *)
Definition pinned_as (w : world) (h : hist) (i id : nat) (f : field) : Prop :=
  exists u vp fs, h_alive h = true /\ h_st h = holding u (trace h) Run /\
    value_of (w_item w) u vp fs /\
    nth_error (fields_list fs) i = Some f /\ is_pinned f = true /\
    nth_error (u_ids u) i = Some id.
Definition pinned_at (w : world) (h : hist) (i id : nat) : Prop := exists f, pinned_as w h i id f.

(** Nothing happens to the memory of field [i]: it is not overwritten, nothing
    is moved out, no destructor runs there, and the value [id] is not destroyed
    somewhere else. *)
Definition untouched (i id : nat) (e : event) : Prop :=
  match e with
  | EvWrite _ => False
  | EvRead j _ | EvStore j _ => j <> i
  | EvDrop p id' => p <> PlField i /\ id' <> id
  | EvBody _ => True
  end.

(** The values on the way into the pinned place. *)
Definition incoming (h : hist) : list nat :=
  flat_map (fun k => match fst k with Some u => u_ids u | None => [] end) (h_stack h).
