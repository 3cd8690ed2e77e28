(** Vocabulary: one field among others. *)
From Coq Require Import String List Bool Arith.
From Verif Require Import Base Syntax ModelArgs ModelDerive ModelRun SpecDerive SpecRun.
Import ListNotations.
Open Scope list_scope.

(** Both have a field at this position, and both or none are marked [#[pin]]. *)
Definition same_mark (j : nat) (fs fs' : fields) : Prop :=
  exists f f', nth_error (fields_list fs) j = Some f /\ nth_error (fields_list fs') j = Some f' /\ is_pinned f = is_pinned f'.
(** What a projection holds at this position. *)
Definition part (j : nat) (v : option rv) : option rv :=
  match v with Some (RProj _ l) => option_map snd (nth_error l j) | _ => None end.
(** What happens to the field at this position while it is in its place. *)
Definition about (j : nat) (e : event) : bool :=
  match e with
  | EvRead i _ | EvStore i _ | EvDrop (PlField i) _ => Nat.eqb i j
  | _ => false
  end.
