(** Shared vocabulary: outcomes of macro code, identifiers, token trees. *)
From Coq Require Import String Ascii List Bool Arith.
From Coq Require Import DecimalString DecimalNat.
Import ListNotations.
Open Scope string_scope.
Open Scope list_scope.

(** Outcome of a piece of macro code.
    [Ok]: the Rust function returned [Ok(..)].
    [Err msg]: it returned [Err(syn::Error)]; only the message is kept, spans
    are not modelled.  The [bail!] macro is
    /repo/pin-project-internal/src/error.rs:12-16.
    [Panic msg]: the Rust code panicked ([unwrap], [expect], [unreachable!]). *)
Inductive res (A : Type) : Type :=
| Ok (a : A)
| Err (msg : string)
| Panic (msg : string).
Arguments Ok {A} a.
Arguments Err {A} msg.
Arguments Panic {A} msg.

(** The [?] operator of Rust. *)
Definition bind {A B : Type} (r : res A) (f : A -> res B) : res B :=
  match r with
  | Ok a => f a
  | Err m => Err m
  | Panic m => Panic m
  end.
Notation "'do' x <- r ; k" := (bind r (fun x => k))
  (at level 200, x binder, r at level 100, k at level 200).
Notation "'do' ' p <- r ; k" := (bind r (fun x => match x with p => k end))
  (at level 200, p pattern, r at level 100, k at level 200).

(** [proc_macro2::Ident]: a name and whether it is written as a raw identifier
    [r#name].  Simplification: spans (hygiene contexts) are not modelled; all
    identifiers the derive creates have call-site hygiene
    ([format_ident!], [Ident::new(.., span)]). *)
Record ident : Type := mkIdent { raw : bool; name : string }.

(** An identifier written plainly. *)
Definition I (s : string) : ident := mkIdent false s.

(** [Ident::to_string] (raw identifiers keep their [r#]). *)
Definition ident_str (i : ident) : string :=
  if raw i then "r#" ++ name i else name i.

(** [PartialEq for Ident] compares the textual form, so [r#a] and [a] differ. *)
Definition ident_eqb (i j : ident) : bool :=
  Bool.eqb (raw i) (raw j) && String.eqb (name i) (name j).

(** [ident == "s"]: textual comparison with a string that does not start with
    [r#]. *)
Definition ident_is (i : ident) (s : string) : bool :=
  negb (raw i) && String.eqb (name i) s.

(** [proc_macro2::TokenTree].  [joint] is [Spacing::Joint].  A lifetime token
    is the punctuation ['] followed by an identifier, as in [proc_macro2]. *)
Inductive delim : Type := Paren | Brace | Bracket | NoDelim.

Inductive ttree : Type :=
| TIdent (i : ident)
| TPunct (c : ascii) (joint : bool)
| TLit (s : string)
| TGroup (d : delim) (l : list ttree).

(** [format!("{}", n)] for [n : usize]. *)
Definition string_of_nat (n : nat) : string :=
  NilEmpty.string_of_uint (Nat.to_uint n).

(** [Option::is_some]. *)
Definition is_some {A} (o : option A) : bool :=
  match o with Some _ => true | None => false end.

(** [Vec] with indices ([iter().enumerate()]). *)
Fixpoint enum_from {A} (k : nat) (l : list A) : list (nat * A) :=
  match l with
  | [] => []
  | x :: r => (k, x) :: enum_from (S k) r
  end.
Definition enumerate {A} (l : list A) : list (nat * A) := enum_from 0 l.
