(** Vocabulary for the destruction of nested values. *)
From Coq Require Import String List Bool Arith.
From Verif Require Import Base Syntax ModelArgs ModelRun ModelDestroy SpecRun.
Import ListNotations.
Open Scope list_scope.

(** Every type in the value comes from an accepted item; its options are [opts w]. *)
Section Opts.
  Context (opts : world -> args).
  Inductive declared : tree -> Prop :=
  | D_plain p : declared (Plain p)
  | D_projected w v kids : program w (opts w) -> (forall k, In k kids -> declared k) -> declared (Projected w v kids).

  (** The value at a path of field numbers. *)
  Fixpoint value_at (t : tree) (path : list nat) : option tree :=
    match path with
    | [] => Some t
    | i :: r =>
      match t with
      | Plain _ => None
      | Projected _ _ kids => match nth_error kids i with Some k => value_at k r | None => None end
      end
    end.

  (** The order of Rust: the value's own [PinnedDrop::drop], if it has one, on the
      value where it is; then its fields in declaration order.  And whether it
      panics. *)
  Fixpoint in_order (path : list nat) (t : tree) : list (visit * bool) :=
    match t with
    | Plain p => [(VPlain path, p)]
    | Projected w _ kids =>
      (if ar_pinned_drop (opts w) then [(VEvent path (EvBody PlSelf), w_body_panics w [])] else []) ++
      (fix fields (i : nat) (l : list tree) : list (visit * bool) :=
         match l with [] => [] | k :: r => in_order (path ++ [i]) k ++ fields (S i) r end) 0 kids
    end.

  (** The destructors of the fields that are pinned ([b]) or not, in order. *)
  Definition of_fields (b : bool) (fs : fields) (kids : list tree) : list (visit * bool) :=
    flat_map (fun x => in_order [fst x] (nth (fst x) kids (Plain false))) (select b fs (seq 0 (length kids))).
End Opts.
(** Where a destructor runs. *)
Definition inside (x : visit * bool) : effect * bool := (Inside (fst x), snd x).
Definition moved_out (x : visit * bool) : effect * bool := (MovedOut (fst x), snd x).
