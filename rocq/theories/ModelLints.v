(** The attributes on generated items: lint levels, [doc(hidden)] and [inline].
    Models the attributes in the templates of
    /repo/pin-project-internal/src/pin_project/derive.rs:66-168, 738-753, 822-846,
    872, 912, 926, 962-996, 1138.  They depend only on the options and on whether
    the item is a struct or an enum; the items themselves are those of
    ModelDerive.v, in the same order. *)
From Coq Require Import String Ascii List Bool.
From Verif Require Import Base Syntax ModelArgs ModelUtils ModelDerive.
Import ListNotations.
Open Scope string_scope.
Open Scope list_scope.

(** The name of a lint: its path. *)
Definition lint : Type := list string.
Definition clippy (x : string) : lint := ["clippy"; x].
Inductive gattr : Type :=
| AAllow (l : list lint)
| AForbid (l : list lint)
| ADocHidden
| AInline.
(** The attributes of an item, and those of each method in it. *)
Record marks : Type := mkMarks { mk_item : list gattr; mk_method : list gattr }.
Definition plain (l : list gattr) : marks := mkMarks l [].

(** [global_allowed_lints] (112-130). *)
Definition global_allowed_lints : list lint :=
  [["deprecated"]; ["explicit_outlives_requirements"]; ["single_use_lifetimes"]; ["unreachable_pub"];
   ["unused_tuple_struct_fields"]; clippy "unknown_clippy_lints"; clippy "absolute_paths"; clippy "min_ident_chars";
   clippy "pattern_type_mismatch"; clippy "pub_with_shorthand"; clippy "redundant_pub_crate";
   clippy "single_char_lifetime_names"; clippy "type_repetition_in_bounds"].

(** [proj_allowed_lints] (133-168). *)
Definition proj_mut_attrs (a : args) : list gattr :=
  [AAllow (["dead_code"] :: (if is_some (ar_project a) then global_allowed_lints else []) ++
           [clippy "missing_docs_in_private_items"; clippy "mut_mut"])].
Definition proj_ref_attrs (a : args) : list gattr :=
  [AAllow (["dead_code"] :: (if is_some (ar_project_ref a) then global_allowed_lints else []) ++
           [clippy "missing_docs_in_private_items"; clippy "ref_option_ref"])].
Definition proj_own_attrs (a : args) (k : type_kind) : list gattr :=
  [AAllow (["dead_code"] :: (if is_some (pr_ident (ar_project_replace a)) then global_allowed_lints else []) ++
           (match k with KEnum => [["variant_size_differences"]; clippy "large_enum_variant"] | KStruct => [] end) ++
           [clippy "missing_docs_in_private_items"])].

(** The projected types (394-408, 468-492), in the order of [gen_extend]: those
    with a name are exposed. *)
Definition exposed_marks (a : args) (k : type_kind) : list marks :=
  (if is_some (ar_project a) then [plain (proj_mut_attrs a)] else []) ++
  (if is_some (ar_project_ref a) then [plain (proj_ref_attrs a)] else []) ++
  (if is_some (pr_ident (ar_project_replace a)) then [plain (proj_own_attrs a k)] else []).
Definition hidden_marks (a : args) (k : type_kind) : list marks :=
  match k with
  | KEnum => []
  | KStruct =>
    (if is_some (ar_project a) then [] else [plain (proj_mut_attrs a)]) ++
    (if is_some (ar_project_ref a) then [] else [plain (proj_ref_attrs a)]) ++
    (if pr_span (ar_project_replace a) && negb (is_some (pr_ident (ar_project_replace a)))
     then [plain (proj_own_attrs a k)] else [])
  end.
(** [make_proj_impl] (962-996). *)
Definition proj_impl_marks : marks := mkMarks [] [AAllow [["dead_code"]]; AInline].
(** [ensure_not_packed] (1138), only for structs. *)
Definition assert_marks (k : type_kind) : list marks :=
  match k with
  | KEnum => []
  | KStruct => [plain [AForbid [["unaligned_references"]; ["safe_packed_borrows"]]]]
  end.
(** [make_unpin_impl] (713-718, 739-757, 822-848). *)
Definition unpin_marks (a : args) : list marks :=
  match ar_unpin a with
  | UUnsafe => [plain []]
  | UNegative => [plain [ADocHidden]; plain [ADocHidden]]
  | UDefault => [plain [AAllow [["missing_debug_implementations"]; ["unnameable_types"]]]; plain []; plain [ADocHidden]]
  end.
(** [make_drop_impl] (868-884, 911-931). *)
Definition drop_marks (a : args) : list marks :=
  if ar_pinned_drop a then [mkMarks [] [AAllow [clippy "missing_inline_in_public_items"]]]
  else [plain []; plain [AAllow [clippy "drop_bounds"; ["drop_bounds"]]]; plain []; plain [ADocHidden]].
(** [into_tokens] (74-106). *)
Definition const_attrs : list gattr :=
  [AAllow (["unused_qualifications"] :: global_allowed_lints ++
           [clippy "elidable_lifetime_names"; clippy "missing_const_for_fn"; clippy "needless_lifetimes";
            clippy "semicolon_if_nothing_returned"; clippy "use_self"; clippy "used_underscore_binding"])].
Definition scoped_marks (a : args) (k : type_kind) : list marks :=
  plain [AAllow [["unused_extern_crates"]]] ::
  hidden_marks a k ++ [proj_impl_marks] ++ assert_marks k ++ unpin_marks a ++ drop_marks a.

Record marked_expansion : Type := mkMarked {
  me_exposed : list (oitem * marks);
  me_const : list gattr;
  me_scoped : list (oitem * marks)
}.
(** The derive (20-49) with the attributes of its output. *)
Definition parse_derive_marked (it : item) : res marked_expansion :=
  match it with
  | ItStruct s =>
    do e <- parse_derive it;
    do a <- parse_args (s_attrs s);
    Ok (mkMarked (combine (exposed e) (exposed_marks a KStruct)) const_attrs (combine (scoped e) (scoped_marks a KStruct)))
  | ItEnum n =>
    do e <- parse_derive it;
    do a <- parse_args (e_attrs n);
    Ok (mkMarked (combine (exposed e) (exposed_marks a KEnum)) const_attrs (combine (scoped e) (scoped_marks a KEnum)))
  | ItOther => do _ <- parse_derive it; Ok (mkMarked [] [] [])
  end.
