(** Destroying a value whose fields are again values of pin-projected types, to any depth. *)
From Coq Require Import String List Bool Arith.
From Verif Require Import Base Syntax ModelRun.
Import ListNotations.
Open Scope string_scope.
Open Scope list_scope.

(** A value: of a type without [#[pin_project]], whose destructor panics or
    not; or of a type with [#[pin_project]], in the program [w] that declares it,
    of a variant (or none, for a struct), with the values of its fields. *)
Inductive tree : Type :=
| Plain (panics : bool)
| Projected (w : world) (variant : option ident) (kids : list tree).

(** What happens: the destructor of a plain value runs, or an event of the code
    generated for a type, for the value at this path of field numbers. *)
Inductive visit : Type :=
| VPlain (path : list nat)
| VEvent (path : list nat) (e : event).

(** The type of a field has drop glue of its own, so the identity that
    [ModelRun.v] gives to a field is just its number here. *)
Definition level (v : option ident) (kids : list tree) (x : stat) : st :=
  mkSt v (map Some (seq 0 (length kids))) [] x.
Definition next_panic (x : stat) : stat :=
  match x with Run => Unwind | Unwind => Abort | _ => x end.
Definition going (x : stat) : bool := match x with Run | Unwind => true | _ => false end.

(** Rust's drop glue: [Drop::drop] of the type first, which is the code that
    make_drop_impl generated (derive.rs:860-934; [call_drop] in [ModelRun.v]), then
    the fields in declaration order; a panic does not stop it, a second one aborts. *)
Section Glue.
  Context (destroy : list nat -> tree -> stat -> list visit * stat).
  Fixpoint destroy_fields (path : list nat) (i : nat) (kids : list tree) (x : stat) : list visit * stat :=
    match kids with
    | [] => ([], x)
    | k :: r =>
      let (e1, y) := destroy (path ++ [i]) k x in
      let (e2, z) := destroy_fields path (S i) r y in (e1 ++ e2, z)
    end.
End Glue.
Fixpoint destroy (path : list nat) (t : tree) (x : stat) {struct t} : list visit * stat :=
  if going x then
    match t with
    | Plain p => ([VPlain path], if p then next_panic x else x)
    | Projected w v kids =>
      let s := call_drop w PlSelf (level v kids x) in
      let (e, y) := destroy_fields destroy path 0 kids (s_stat s) in
      (map (VEvent path) (s_trace s) ++ e, y)
    end
  else ([], x).

(** ** [project_replace] on such a value *)

(** The destructor of a field panics (or aborts, by two panics inside). *)
Definition kid_panics (kids : list tree) (i : nat) : bool :=
  match snd (destroy [] (nth i kids (Plain false)) Run) with Run => false | _ => true end.
Definition with_kids (w : world) (kids : list tree) : world :=
  mkWorld (w_item w) (w_exp w) (w_consts w) (kid_panics kids) (w_body_panics w) (w_leaky w).
(** A destructor runs inside the value that is replaced, or after its part of the
    value has been moved out; or the generated code itself does something. *)
Inductive effect : Type :=
| Inside (v : visit)
| MovedOut (v : visit)
| Own (e : event).
(** The events of the generated code, with the destructor of a field replaced by
    what the drop glue of its type does. *)
Fixpoint unfold_events (kids : list tree) (l : list event) (x : stat) : list effect * stat :=
  match l with
  | [] => ([], x)
  | e :: r =>
    if going x then
      let (now, y) :=
        match e with
        | EvDrop (PlField _) i => let (l1, y) := destroy [i] (nth i kids (Plain false)) x in (map Inside l1, y)
        | EvDrop _ i => let (l1, y) := destroy [i] (nth i kids (Plain false)) x in (map MovedOut l1, y)
        | _ => ([Own e], x)
        end in
      let (later, z) := unfold_events kids r y in (now ++ later, z)
    else ([], x)
  end.
(** [project_replace] with the value [r]: the body printed by make_proj_impl and
    proj_own_body (derive.rs:653-688, 942-1033; [call_method] in [ModelRun.v]). *)
Definition replace_nested (w : world) (v : option ident) (kids : list tree) (r : uval) :
    option (option rv * (list effect * stat)) :=
  match call_method (with_kids w kids) "project_replace" (RPin true PlSelf) [RUser r] (level v kids Run) with
  | Some (res, s) => Some (res, unfold_events kids (s_trace s) Run)
  | None => None
  end.
