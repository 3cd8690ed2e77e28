(** The two macro stages in sequence, as rustc runs them. *)
From Coq Require Import String List Bool.
From Verif Require Import Base Syntax ModelArgs ModelAttribute ModelDerive.
Import ListNotations.

(** [#[pin_project(args)] input]: the attribute stage
    (/repo/pin-project-internal/src/pin_project/mod.rs:14-18), then
    configuration by rustc, then the derive stage (mod.rs:20-22, derive.rs:20-49).
    [between] is what other macros do to the item in between.  [Ok None]: the
    whole item is configured out and the derive is never called.
    Simplification: the [derive] attribute that the attribute stage added stays
    in the attribute list; the derive looks only at [pin], [pin_project] and
    [repr]. *)
Definition pipeline (holds : nat -> bool) (between : raw_item -> raw_item)
    (args : list ttree) (input : raw_item) : res (option expansion) :=
  do r <- parse_attribute args input;
  match strip_item holds (between r) with
  | None => Ok None
  | Some it => do e <- parse_derive it; Ok (Some e)
  end.
