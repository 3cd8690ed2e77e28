(** Vocabulary: what happens to the memory of a value, as seen by the two descriptions
    of the generated code: its values and panics (ModelRun.v), and its pointers
    (ModelAlias.v). *)
From Coq Require Import List Bool Arith.
From Verif Require Import Base Syntax ModelRun ModelAlias.
Import ListNotations.
Open Scope list_scope.

Inductive deed : Type :=
| DCopied (i : nat)      (* field [i] is copied out *)
| DUser (p : place)      (* the user's code (a destructor of a field, or [PinnedDrop::drop]) runs on [p] *)
| DStored (i : nat)      (* field [i] is overwritten *)
| DWritten.              (* the whole value is overwritten *)

(** In the operations on pointers.  The user's code gets a protected reference, and
    what happens until that ends is part of it ([user]: this is so).  Reading the value
    as a whole means looking at its discriminant, which is not an event of a run. *)
Fixpoint deeds (user : bool) (os : list op) : list deed :=
  match os with
  | [] => []
  | ORelease _ :: r => deeds false r
  | o :: r =>
    if user then deeds true r
    else match o with
         | ORetag _ true p _ _ => DUser p :: deeds true r
         | OUse false (PlField i) _ => DCopied i :: deeds false r
         | OUse true (PlField i) _ => DStored i :: deeds false r
         | OUse true PlSelf _ => DWritten :: deeds false r
         | _ => deeds false r
         end
  end.
(** In the events of a run.  Destructors of values that have been moved out do not
    touch the memory of the value. *)
Definition deed_of (e : event) : list deed :=
  match e with
  | EvRead i _ => [DCopied i]
  | EvDrop (PlField i) _ => [DUser (PlField i)]
  | EvDrop _ _ => []
  | EvBody p => [DUser p]
  | EvWrite _ => [DWritten]
  | EvStore i _ => [DStored i]
  end.
