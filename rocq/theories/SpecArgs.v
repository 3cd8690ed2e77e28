(** The language of [#[pin_project(..)]] arguments, as documented in
    /repo/pin-project-internal/src/lib.rs (doc comment of [pin_project]) and
    exercised in /repo/tests/ui/pin_project/invalid.rs:90-218. *)
From Coq Require Import String Ascii List Bool.
From Verif Require Import Base ModelArgs.
Import ListNotations.
Open Scope string_scope.
Open Scope list_scope.

(** An argument, as the user thinks of it. *)
Inductive parg : Type :=
| GPinnedDrop
| GUnsafeUnpin
| GNotUnpin
| GProject (i : ident)
| GProjectRef (i : ident)
| GReplace
| GReplaceNamed (i : ident).

(** The keywords (Rust reference, 2018 and later): those in use, those reserved
    for later; [_] is not an identifier either. *)
Definition strict_keywords : list string :=
  ["as"; "break"; "const"; "continue"; "crate"; "else"; "enum"; "extern"; "false"; "fn"; "for"; "if"; "impl"; "in";
   "let"; "loop"; "match"; "mod"; "move"; "mut"; "pub"; "ref"; "return"; "self"; "Self"; "static"; "struct"; "super";
   "trait"; "true"; "type"; "unsafe"; "use"; "where"; "while"; "async"; "await"; "dyn"].
Definition reserved_keywords : list string :=
  ["abstract"; "become"; "box"; "do"; "final"; "macro"; "override"; "priv"; "typeof"; "unsized"; "virtual"; "yield"; "try"].
Definition keyword (s : string) : Prop := In s strict_keywords \/ In s reserved_keywords \/ s = "_".

(** An identifier that is not a Rust keyword (raw identifiers never are). *)
Definition plain_ident (i : ident) : Prop := raw i = true \/ ~ keyword (name i).

(** How one argument is written. *)
Inductive written1 : parg -> list ttree -> Prop :=
| W_pinned_drop : written1 GPinnedDrop [TIdent (I "PinnedDrop")]
| W_unsafe_unpin : written1 GUnsafeUnpin [TIdent (I "UnsafeUnpin")]
| W_not_unpin s : written1 GNotUnpin [TPunct "!" s; TIdent (I "Unpin")]
| W_project s i : plain_ident i ->
    written1 (GProject i) [TIdent (I "project"); TPunct "=" s; TIdent i]
| W_project_ref s i : plain_ident i ->
    written1 (GProjectRef i) [TIdent (I "project_ref"); TPunct "=" s; TIdent i]
| W_replace : written1 GReplace [TIdent (I "project_replace")]
| W_replace_named s i : plain_ident i ->
    written1 (GReplaceNamed i) [TIdent (I "project_replace"); TPunct "=" s; TIdent i].

(** How a list of arguments is written: separated by commas, with an optional
    trailing comma. *)
Inductive written : list parg -> list ttree -> Prop :=
| W_nil : written [] []
| W_last a t : written1 a t -> written [a] t
| W_more a t s l ts : written1 a t -> written l ts ->
    written (a :: l) (t ++ TPunct "," s :: ts).

(** The kind of an argument; [project_replace] with and without a name is one
    kind. *)
Inductive pkind : Type := KPinnedDrop | KUnsafeUnpin | KNotUnpin | KProject | KProjectRef | KReplace.
Definition kind (a : parg) : pkind :=
  match a with
  | GPinnedDrop => KPinnedDrop
  | GUnsafeUnpin => KUnsafeUnpin
  | GNotUnpin => KNotUnpin
  | GProject _ => KProject
  | GProjectRef _ => KProjectRef
  | GReplace | GReplaceNamed _ => KReplace
  end.
(** The name an argument introduces. *)
Definition given (a : parg) : list ident :=
  match a with
  | GProject i | GProjectRef i | GReplaceNamed i => [i]
  | _ => []
  end.

(** A list of arguments that makes sense. *)
Record sensible (l : list parg) : Prop := {
  each_once : NoDup (map kind l);
  names_distinct : NoDup (flat_map given l);
  drop_xor_replace : ~ (In KPinnedDrop (map kind l) /\ In KReplace (map kind l));
  unpin_xor : ~ (In KUnsafeUnpin (map kind l) /\ In KNotUnpin (map kind l))
}.

(** The options [a] are the ones in the list [l]. *)
Record options_are (l : list parg) (a : args) : Prop := {
  o_pinned_drop : ar_pinned_drop a = true <-> In GPinnedDrop l;
  o_unsafe : ar_unpin a = UUnsafe <-> In GUnsafeUnpin l;
  o_negative : ar_unpin a = UNegative <-> In GNotUnpin l;
  o_project : forall i, ar_project a = Some i <-> In (GProject i) l;
  o_project_ref : forall i, ar_project_ref a = Some i <-> In (GProjectRef i) l;
  o_replace : ar_project_replace a = PRUnnamed <-> In GReplace l;
  o_replace_named : forall i, ar_project_replace a = PRNamed i <-> In (GReplaceNamed i) l
}.
