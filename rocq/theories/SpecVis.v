(** Rust's visibility rules, on module trees. *)
From Coq Require Import String List Bool.
From Verif Require Import Base Syntax.
Import ListNotations.
Open Scope string_scope.
Open Scope list_scope.

(** A module of the crate is its path from the crate root. *)
Definition module := list ident.

(** Who asks: code in a module of this crate, or another crate. *)
Inductive viewer : Type := Inside (m : module) | OtherCrate.

Definition within (a m : module) : Prop := exists r, m = a ++ r.

(** The module a path denotes, starting in module [m]. *)
Fixpoint walk (m : module) (p : list ident) : option module :=
  match p with
  | [] => Some m
  | i :: r =>
    if ident_is i "self" then walk m r
    else if ident_is i "super" then match m with [] => None | _ => walk (removelast m) r end
    else walk (m ++ [i]) r
  end.
(** Whether the crate is of the 2015 edition. *)
Inductive edition : Type := Rust2015 | Rust2018.
(** The module in [pub(p)] / [pub(in p)] written in module [m]: paths start with
    [crate], [self] or [super]; other paths are an error, but in the 2015 edition
    they are relative to the crate root. *)
Definition restricted_to (ed : edition) (m : module) (p : list ident) : option module :=
  match p with
  | i :: r =>
    if ident_is i "crate" then walk [] r
    else if ident_is i "self" || ident_is i "super" then walk m p
    else match ed with Rust2015 => walk [] p | Rust2018 => None end
  | [] => None
  end.

(** [v], written on an item in module [m], is a legal visibility: a restriction
    names the module itself or an ancestor. *)
Definition legal (ed : edition) (m : module) (v : vis) : Prop :=
  match v with
  | VInherited | VPub => True
  | VRestricted _ p => exists t, restricted_to ed m p = Some t /\ within t m
  end.

(** An item with visibility [v] in module [m] may be used by [w].  Items inside a
    [const _: () = { .. }] block belong to the module that contains the block. *)
Definition visible (ed : edition) (m : module) (v : vis) (w : viewer) : Prop :=
  match v with
  | VPub => True
  | VInherited => exists x, w = Inside x /\ within m x
  | VRestricted _ p => exists t x, restricted_to ed m p = Some t /\ w = Inside x /\ within t x
  end.

(** [v'] is legal and grants access exactly where [v] does inside the crate. *)
Definition same_in_crate (ed : edition) (m : module) (v v' : vis) : Prop :=
  legal ed m v' /\ forall w, visible ed m v' w <-> visible ed m v w /\ w <> OtherCrate.
