(** Vocabulary: items that differ in everything but their names and their pinned fields. *)
From Coq Require Import String List Bool.
From Verif Require Import Base Syntax ModelArgs ModelDerive ModelRun SpecDerive SpecRun.
Import ListNotations.
Open Scope list_scope.

(** The names of the fields, and which of them are marked [#[pin]].  Types,
    visibilities and other attributes are left out. *)
Definition shape (fs : fields) : list (option ident * bool) :=
  map (fun f => (f_ident f, is_pinned f)) (fields_list fs).
(** The same destructors panic. *)
Definition same_panics (w w' : world) : Prop :=
  (forall id, w_panics w id = w_panics w' id) /\ (forall t, w_body_panics w t = w_body_panics w' t).

(** An item without types, visibilities, generics and other attributes: its name,
    whether it is a struct, and for its fields, or for each of its variants and
    their fields, how they are written and their shape. *)
Inductive form : Type := Named | Positional | NoFields.
Definition form_of (fs : fields) : form :=
  match fs with FNamed _ => Named | FUnnamed _ => Positional | FUnit => NoFields end.
Definition outline (it : item) : ident * (form * list (option ident * bool) + list (ident * form * list (option ident * bool))) :=
  match it with
  | ItStruct s => (s_ident s, inl (form_of (s_fields s), shape (s_fields s)))
  | ItEnum e => (e_ident e, inr (map (fun v => (v_ident v, form_of (v_fields v), shape (v_fields v))) (e_variants e)))
  | ItOther => (I "", inr [])
  end.
(** A method without its visibility and its types. *)
Definition code (m : method) : ident * list ident * body := (m_name m, map fst (m_params m), m_body m).
