(** Vocabulary for C68: several threads. *)
From Coq Require Import String Ascii List Bool Arith.
From Verif Require Import Base Syntax ModelArgs ModelDerive ModelRun ModelAlias.
From Verif Require Import SpecArgs SpecDerive SpecExpand SpecRun SpecAlias.
Import ListNotations.
Open Scope string_scope.
Open Scope list_scope.

(** A schedule: in each step one of the threads does its next operation, until all
    of them are done. *)
Inductive interleaved : list (list op) -> list op -> Prop :=
| I_done ths : (forall th, In th ths -> th = []) -> interleaved ths []
| I_step ths1 o th ths2 os : interleaved (ths1 ++ th :: ths2) os ->
    interleaved (ths1 ++ (o :: th) :: ths2) (o :: os).

(** Each thread has the shared pointer [t] to the pinned value and does with it what
    [shared_session] permits: it calls [project_ref], copies and reads, as often as it
    likes.  Their tags differ. *)
Inductive sharing (w : world) (a : args) (v : option ident) (t : nat) : nat -> list (list op) -> nat -> Prop :=
| T_none n : sharing w a v t n [] n
| T_thread n uses th n1 ths n2 :
    shared_session w a uses v [(PlSelf, t)] n th n1 -> sharing w a v t n1 ths n2 ->
    sharing w a v t n (th :: ths) n2.

(** Operations that count as a write to the places they cover. *)
Definition writes (o : op) : bool :=
  match o with
  | OUse b _ _ => b
  | ORetag PkShared _ _ _ _ => false
  | ORetag _ _ _ _ _ => true
  | ORelease _ => false
  end.
Definition touches (o : op) (l : loc) : bool :=
  match o with ORetag _ _ p _ _ | OUse _ p _ => covers p l | ORelease _ => false end.
(** Two threads access the same part, and one of them writes. *)
Definition conflict (o1 o2 : op) : Prop :=
  (writes o1 = true \/ writes o2 = true) /\ exists l, touches o1 l = true /\ touches o2 l = true.
Definition race_free (ths : list (list op)) : Prop :=
  forall i j th1 th2 o1 o2, i <> j -> nth_error ths i = Some th1 -> nth_error ths j = Some th2 ->
    In o1 th1 -> In o2 th2 -> ~ conflict o1 o2.
