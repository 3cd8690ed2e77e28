(** Which of a list of calls are really made when some of them panic. *)
From Coq Require Import List Bool Arith.
From Verif Require Import Base ModelRun SpecRun.
Import ListNotations.
Open Scope list_scope.

(** The calls [l] are made one after the other, starting in the state [x]; those
    with [bad] panic.  One panic does not stop the others, the second one aborts:
    it is the last call that is made.  The calls that are made, and the state
    after them. *)
Fixpoint calls {A} (bad : A -> bool) (l : list A) (x : stat) : list A * stat :=
  match l with
  | [] => ([], x)
  | c :: r =>
    match x with
    | Run | Unwind => let (made, y) := calls bad r (if bad c then after_panic x else x) in (c :: made, y)
    | _ => ([], x)
    end
  end.

(** Destructors of the fields and the user's [PinnedDrop::drop] (called after the
    events [t]) that panic. *)
Definition bad_call (w : world) (t : list event) (e : event) : bool :=
  match e with
  | EvDrop _ id => w_panics w id
  | EvBody _ => w_body_panics w t
  | _ => false
  end.

(** Nobody panicked; the stack is unwound; a second panic aborted the process. *)
Definition stat_after (n : nat) : stat := match n with 0 => Run | 1 => Unwind | _ => Abort end.
