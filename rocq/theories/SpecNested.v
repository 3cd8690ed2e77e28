(** Vocabulary for C66: values inside of values.  A structurally pinned field may hold
    a value whose type also uses [#[pin_project]], and so on. *)
From Coq Require Import String List Bool Arith.
From Verif Require Import Base Syntax ModelArgs ModelUtils ModelDerive ModelRun ModelHistory ModelUnpin ModelMeaning ModelTraits.
From Verif Require Import SpecArgs SpecDerive SpecExpand SpecRun SpecHistory SpecTraits SpecUnpin.
Import ListNotations.
Open Scope list_scope.

(** One of the values: its item and the program around it (as in C54), the instance
    of the generics, what has happened to it so far, and which of its fields is
    looked at: field [lv_field], declared as [lv_decl], with the value [lv_id] in it. *)
Record level : Type := mkLevel {
  lv_se : setting;
  lv_holds : D (se_univ lv_se) -> D (se_univ lv_se) -> Prop;
  lv_fails : env (D (se_univ lv_se)) (LT (se_univ lv_se)) -> wpred -> Prop;
  lv_args : args;
  lv_s : string -> D (se_univ lv_se);
  lv_l : string -> LT (se_univ lv_se);
  lv_world : world;
  lv_hist : hist;
  lv_field : nat;
  lv_id : nat;
  lv_decl : field
}.
Definition with_hist (lv : level) (h : hist) : level :=
  mkLevel (lv_se lv) (lv_holds lv) (lv_fails lv) (lv_args lv) (lv_s lv) (lv_l lv) (lv_world lv) h (lv_field lv) (lv_id lv) (lv_decl lv).

(** The conditions of C54, and the value is in its field. *)
Record sound_level (lv : level) : Prop := {
  sl_legal : legal (lv_se lv);
  sl_names : uncaptured (lv_se lv);
  sl_compiles : compiles (lv_se lv) (lv_holds lv) (lv_fails lv);
  sl_promise : promise_kept (lv_se lv) (lv_holds lv);
  sl_item : w_item (lv_world lv) = se_item (lv_se lv);
  sl_program : program (lv_world lv) (lv_args lv);
  sl_history : safe_history (lv_se lv) (lv_holds lv) (lv_s lv) (lv_l lv) (lv_world lv) (lv_hist lv);
  sl_pinned : pinned_as (lv_world lv) (lv_hist lv) (lv_field lv) (lv_id lv) (lv_decl lv)
}.
(** The value itself, and the value in the field, are [Unpin]. *)
Definition self_unpin (lv : level) : Prop := lv_holds lv (unpin (lv_se lv)) (item_at (lv_se lv) (lv_s lv) (lv_l lv)).
Definition field_unpin (lv : level) (f : field) : Prop :=
  lv_holds lv (unpin (lv_se lv)) (type_at (lv_se lv) (lv_s lv) (lv_l lv) f).
(** From the outside to the inside: the value in the field of each level is the next
    level, so it is the same type that is [Unpin] or not.  The innermost is not. *)
Fixpoint enclosed (t : list level) : Prop :=
  match t with
  | [] => False
  | [lv] => sound_level lv /\ ~ field_unpin lv (lv_decl lv)
  | lv :: ((lv2 :: _) as r) => sound_level lv /\ (field_unpin lv (lv_decl lv) <-> self_unpin lv2) /\ enclosed r
  end.

(** What safe code can do with one of them. *)
Definition lv_step (lv : level) (h' : hist) : Prop :=
  step_unpin (lv_world lv) (self_unpin lv) (field_unpin lv) (lv_hist lv) h'.
Definition destroyed_here (lv : level) : event := EvDrop (PlField (lv_field lv)) (lv_id lv).
Definition at_depth (k : nat) (l : list event) : list (nat * event) := map (pair k) l.
Definition deeper (k : nat) (l : list (nat * event)) : list (nat * event) := map (fun x => (k + fst x, snd x)) l.
(** The outermost value is gone. *)
Definition finished (t : list level) : Prop :=
  exists lv r, t = lv :: r /\ h_alive (lv_hist lv) = false /\ ~ aborted (lv_hist lv).

(** What safe code can do with all of them, in any order, with the events (and the
    depth of the value they happen to); up to the point where one of the fields we
    look at loses its value.
    - [N_step]: something with one of the values that does not destroy the value in its field.
    - [N_leaf]: the same, but the value in the field of the innermost one is destroyed.
    - [N_drop]: the value in the field of an outer one is destroyed.  This is the destructor
      of the next value, so that value is finished before anything else happens, and
      only then the outer value goes on.  (What happens after the innermost value is
      destroyed is left out.) *)
Inductive nested : list level -> list (nat * event) -> option (list level) -> Prop :=
| N_end t : nested t [] (Some t)
| N_step pre lv post h' evs rest o :
    lv_step lv h' -> trace h' = trace (lv_hist lv) ++ evs -> ~ In (destroyed_here lv) evs ->
    nested (pre ++ with_hist lv h' :: post) rest o ->
    nested (pre ++ lv :: post) (at_depth (length pre) evs ++ rest) o
| N_leaf pre lv h' e1 e2 :
    lv_step lv h' -> trace h' = trace (lv_hist lv) ++ e1 ++ destroyed_here lv :: e2 -> ~ In (destroyed_here lv) e1 ->
    nested (pre ++ [lv]) (at_depth (length pre) (e1 ++ [destroyed_here lv])) None
| N_drop pre lv post h' e1 e2 inner o :
    lv_step lv h' -> trace h' = trace (lv_hist lv) ++ e1 ++ destroyed_here lv :: e2 -> ~ In (destroyed_here lv) e1 ->
    post <> [] -> nested post inner o -> (forall t', o = Some t' -> finished t') ->
    nested (pre ++ lv :: post)
      (at_depth (length pre) e1 ++ deeper (S (length pre)) inner ++ [(length pre, destroyed_here lv)]) None.

(** Nothing happens to the memory of the fields we look at. *)
Definition undisturbed (t : list level) (e : nat * event) : Prop :=
  forall lv, nth_error t (fst e) = Some lv -> untouched (lv_field lv) (lv_id lv) (snd e).
(** The innermost value is destroyed in its place. *)
Definition leaf_destroyed (t : list level) (e : nat * event) : Prop :=
  exists pre lv, t = pre ++ [lv] /\ e = (length pre, destroyed_here lv).
(** A value is still in its field. *)
Definition in_place (lv : level) : Prop :=
  pinned_as (lv_world lv) (lv_hist lv) (lv_field lv) (lv_id lv) (lv_decl lv) \/ aborted (lv_hist lv).
(** The same values, at a later time. *)
Definition later (lv lv' : level) : Prop := exists h', lv' = with_hist lv h'.
