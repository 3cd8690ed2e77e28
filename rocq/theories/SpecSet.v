(** Vocabulary for C67: [project_replace] compared with [Pin::set]. *)
From Coq Require Import String Ascii List Bool Arith.
From Verif Require Import Base Syntax ModelArgs ModelUtils ModelDerive ModelRun.
From Verif Require Import SpecArgs SpecDerive SpecExpand SpecRun.
Import ListNotations.
Open Scope string_scope.
Open Scope list_scope.

(** [Pin::set(r)], which is [*self = r]: the old value is dropped where it is,
    and [r] is stored there, also if a destructor panicked (but not if the
    process aborted). *)
Definition pin_set (w : world) (r : uval) (s : st) : st := overwrite PlSelf r (drop_self w s).

(** [drop(self.project_replace(r))]; if the call panics there is no result to drop. *)
Definition replace_and_drop (w : world) (r : uval) (s : st) : option st :=
  match call_method w "project_replace" (RPin true PlSelf) [RUser r] s with
  | Some (Some v, s') => Some (drop_rv w (drop_user w) v s')
  | Some (None, s') => Some s'
  | None => None
  end.

(** The fields whose destructor ran where they are, in order: position and value. *)
Definition destroyed_in_place (t : list event) : list (nat * nat) :=
  flat_map (fun e => match e with EvDrop (PlField i) id => [(i, id)] | _ => [] end) t.
(** Is the field at this position pinned? *)
Definition pinned_at (fs : fields) (x : nat * nat) : bool :=
  match nth_error (fields_list fs) (fst x) with Some f => is_pinned f | None => false end.
