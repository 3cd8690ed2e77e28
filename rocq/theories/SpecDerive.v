(** What the derive accepts and what it generates, stated on items. *)
From Coq Require Import String Ascii List Bool.
From Verif Require Import Base Syntax ModelArgs SpecArgs.
Import ListNotations.
Open Scope string_scope.
Open Scope list_scope.

(** The macro succeeds. *)
Definition is_ok {A} (r : res A) : Prop := exists a, r = Ok a.

(** ** Attributes *)

(** [#[s]], [#[s(..)]] or [#[s = ..]]. *)
Definition attr_named (x : attr) (s : string) : Prop := a_lead x = false /\ a_path x = [I s].

(** ** The lists inside [#[repr(..)]] *)
Definition seg_word (i : ident) : Prop :=
  plain_ident i \/ In i [I "crate"; I "self"; I "super"; I "Self"].
Inductive segs_written : list ident -> list ttree -> Prop :=
| PS_one i : seg_word i -> segs_written [i] [TIdent i]
| PS_more i l s ts : seg_word i -> segs_written l ts ->
    segs_written (i :: l) (TIdent i :: TPunct ":" true :: TPunct ":" s :: ts).
Inductive mpath_written : bool -> list ident -> list ttree -> Prop :=
| MP_rel l ts : segs_written l ts -> mpath_written false l ts
| MP_abs s l ts : segs_written l ts ->
    mpath_written true l (TPunct ":" true :: TPunct ":" s :: ts).

(** One entry of a [repr] list with its path: [path], [path(..)] or
    [path = value]. *)
Definition no_comma (v : list ttree) : Prop := forall s, ~ In (TPunct "," s) v.
Inductive entry_written : bool * list ident -> list ttree -> Prop :=
| EW_path lead p t : mpath_written lead p t -> entry_written (lead, p) t
| EW_list lead p t d x : mpath_written lead p t -> d <> NoDelim ->
    entry_written (lead, p) (t ++ [TGroup d x])
| EW_value lead p t s v : mpath_written lead p t -> v <> [] -> no_comma v ->
    entry_written (lead, p) (t ++ TPunct "=" s :: v).
Inductive entries_written : list (bool * list ident) -> list ttree -> Prop :=
| ES_nil : entries_written [] []
| ES_last e t : entry_written e t -> entries_written [e] t
| ES_more e t s l ts : entry_written e t -> entries_written l ts ->
    entries_written (e :: l) (t ++ TPunct "," s :: ts).

(** Every [repr(..)] is a well-formed list without an entry [packed],
    [packed(..)] or [packed = ..]. *)
Definition reprs_ok (l : list attr) : Prop :=
  forall x d ts, In x l -> attr_named x "repr" -> a_meta x = MList d ts ->
  exists es, entries_written es ts /\ ~ In (false, [I "packed"]) es.

(** ** The marker attribute and the arguments *)

(** Among the attributes there is exactly one [#[pin ..]], it is
    [#[pin(__private(ts))]], and there is no [#[pin_project ..]]. *)
Definition marked (l : list attr) (ts : list ttree) : Prop :=
  (forall x, In x l -> ~ attr_named x "pin_project") /\
  exists l1 x d l2, l = l1 ++ x :: l2 /\
    attr_named x "pin" /\ a_meta x = MList d [TIdent (I "__private"); TGroup Paren ts] /\
    forall y, In y (l1 ++ l2) -> ~ attr_named y "pin".

(** The options in force for an item with attributes [l]. *)
Definition options (l : list attr) (a : args) : Prop :=
  exists ts pl, marked l ts /\ written pl ts /\ sensible pl /\ options_are pl a.

(** No name given for a projected type is the name of the type itself. *)
Definition no_clash (a : args) (i : ident) : Prop :=
  ar_project a <> Some i /\ ar_project_ref a <> Some i /\ ar_project_replace a <> PRNamed i.

(** ** Fields *)
Definition pinned (f : field) : Prop := exists x, In x (f_attrs f) /\ attr_named x "pin".
(** At most one [#[pin]], and without arguments. *)
Definition pins_ok (f : field) : Prop :=
  (forall x, In x (f_attrs f) -> attr_named x "pin" -> a_meta x = MPath) /\
  (forall l1 x l2 y l3, f_attrs f = l1 ++ x :: l2 ++ y :: l3 ->
     ~ (attr_named x "pin" /\ attr_named y "pin")).

(** ** Acceptance *)
Record accepts_struct (s : item_struct) (a : args) : Prop := {
  as_options : options (s_attrs s) a;
  as_no_clash : no_clash a (s_ident s);
  as_repr : reprs_ok (s_attrs s);
  as_nonempty : exists f, In f (fields_list (s_fields s));
  as_pins : forall f, In f (fields_list (s_fields s)) -> pins_ok f
}.

Record accepts_enum (e : item_enum) (a : args) : Prop := {
  ae_options : options (e_attrs e) a;
  ae_no_clash : no_clash a (e_ident e);
  ae_replace_named : ar_project_replace a <> PRUnnamed;
  ae_repr : reprs_ok (e_attrs e);
  ae_nonempty : exists v f, In v (e_variants e) /\ In f (fields_list (v_fields v));
  ae_disc : forall v, In v (e_variants e) -> v_disc v = false;
  ae_variant_pin : forall v x, In v (e_variants e) -> In x (v_attrs v) -> ~ attr_named x "pin";
  ae_pins : forall v f, In v (e_variants e) -> In f (fields_list (v_fields v)) -> pins_ok f
}.
