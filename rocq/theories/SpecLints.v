(** Vocabulary for C58: lint levels. *)
From Coq Require Import String List Bool.
From Verif Require Import Base Syntax ModelArgs ModelDerive ModelLints SpecDerive SpecExpand SpecRun.
Import ListNotations.
Open Scope string_scope.
Open Scope list_scope.

(** The level of every lint at some place in the program. *)
Inductive level : Type := Allow | Warn | Deny | Forbid.
Definition levels : Type := lint -> level.
Definition mentions (l : list lint) (x : lint) : bool := existsb (fun y => if list_eq_dec string_dec x y then true else false) l.
Definition allows (as_ : list gattr) (x : lint) : bool :=
  existsb (fun a => match a with AAllow l => mentions l x | _ => false end) as_.
Definition forbids (as_ : list gattr) (x : lint) : bool :=
  existsb (fun a => match a with AForbid l => mentions l x | _ => false end) as_.
(** The levels inside an item with the attributes [as_]: nothing lowers a lint
    that is forbidden further out. *)
Definition enter (lv : levels) (as_ : list gattr) : levels := fun x =>
  match lv x with
  | Forbid => Forbid
  | l => if forbids as_ x then Forbid else if allows as_ x then Allow else l
  end.
(** ... and lowering it is an error (E0453). *)
Definition contradicts (lv : levels) (as_ : list gattr) : Prop := exists x, lv x = Forbid /\ allows as_ x = true.

(** The generated items and the levels there, for an item that stands where the
    levels are [lv]. *)
Definition places (lv : levels) (me : marked_expansion) : list (oitem * levels) :=
  map (fun p => (fst p, enter lv (mk_item (snd p)))) (me_exposed me) ++
  map (fun p => (fst p, enter (enter lv (me_const me)) (mk_item (snd p)))) (me_scoped me).
(** The levels in the methods of the generated impls. *)
Definition methods_at (lv : levels) (p : oitem * marks) : list (impl * levels) :=
  match fst p with OImpl im => [(im, enter (enter lv (mk_item (snd p))) (mk_method (snd p)))] | _ => [] end.
Definition method_places (lv : levels) (me : marked_expansion) : list (impl * levels) :=
  flat_map (methods_at lv) (me_exposed me) ++ flat_map (methods_at (enter lv (me_const me))) (me_scoped me).
(** Some attribute of the expansion lowers a forbidden lint. *)
Definition refused_at (lv : levels) (p : oitem * marks) : Prop :=
  contradicts lv (mk_item (snd p)) \/ contradicts (enter lv (mk_item (snd p))) (mk_method (snd p)).
Definition refused (lv : levels) (me : marked_expansion) : Prop :=
  (exists p, In p (me_exposed me) /\ refused_at lv p) \/ contradicts lv (me_const me) \/
  (exists p, In p (me_scoped me) /\ refused_at (enter lv (me_const me)) p).

(** The lints that generated code of any kind may set off: what the user wrote
    is written again (deprecated types, long paths, short names, [pub] in a
    private type, bounds), with lifetimes that are not always needed. *)
Definition everywhere : list lint :=
  [["deprecated"]; ["explicit_outlives_requirements"]; ["single_use_lifetimes"]; ["unreachable_pub"];
   ["unused_tuple_struct_fields"];
   ["clippy"; "unknown_clippy_lints"]; ["clippy"; "absolute_paths"]; ["clippy"; "min_ident_chars"];
   ["clippy"; "pattern_type_mismatch"]; ["clippy"; "pub_with_shorthand"]; ["clippy"; "redundant_pub_crate"];
   ["clippy"; "single_char_lifetime_names"]; ["clippy"; "type_repetition_in_bounds"]].
(** Those that a projected type of kind [k] may set off: unused fields, no
    documentation, [&mut &mut T], [&Option<&T>], variants of different sizes. *)
Definition of_projected (k : proj) (kd : type_kind) : list lint :=
  [["dead_code"]; ["clippy"; "missing_docs_in_private_items"]] ++
  match k, kd with
  | PMut, _ => [["clippy"; "mut_mut"]]
  | PRef, _ => [["clippy"; "ref_option_ref"]]
  | POwn, KEnum => [["variant_size_differences"]; ["clippy"; "large_enum_variant"]]
  | POwn, KStruct => []
  end.
(** Those that only code inside [const _] may set off. *)
Definition inside_const : list lint :=
  [["unused_qualifications"]; ["clippy"; "elidable_lifetime_names"]; ["clippy"; "missing_const_for_fn"];
   ["clippy"; "needless_lifetimes"]; ["clippy"; "semicolon_if_nothing_returned"]; ["clippy"; "use_self"];
   ["clippy"; "used_underscore_binding"]].
(** The other lints that are switched off somewhere. *)
Definition here_and_there : list lint :=
  [["unused_extern_crates"]; ["missing_debug_implementations"]; ["unnameable_types"]; ["clippy"; "drop_bounds"];
   ["drop_bounds"]; ["clippy"; "missing_inline_in_public_items"]].
(** All of them. *)
Definition lowered : list lint :=
  everywhere ++ inside_const ++ here_and_there ++ flat_map (fun k => of_projected k KEnum) [PMut; PRef; POwn].
(** A reference to a field that is not aligned. *)
Definition packed_lints : list lint := [["unaligned_references"]; ["safe_packed_borrows"]].

Definition kind_of (it : item) : type_kind := match it with ItEnum _ => KEnum | _ => KStruct end.
Definition type_named (o : oitem) (i : ident) : Prop :=
  match o with OStruct _ j _ _ | OEnum _ j _ _ => j = i | _ => False end.
