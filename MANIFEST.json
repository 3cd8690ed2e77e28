{
 "claims": [
  {
   "property": "C01",
   "status": "proved",
   "theorems": [
    "C01_arguments_exact",
    "C01_arguments_error",
    "C01_grammar_unambiguous"
   ],
   "note": ""
  },
  {
   "property": "C02",
   "status": "proved",
   "theorems": [
    "C02_order_irrelevant"
   ],
   "note": ""
  },
  {
   "property": "C03",
   "status": "proved",
   "theorems": [
    "C03_options_exclusive",
    "C03_both_written_rejected",
    "C03_never_replace_and_drop",
    "C03_traits_struct",
    "C03_traits_enum"
   ],
   "note": ""
  },
  {
   "property": "C04",
   "status": "proved",
   "theorems": [
    "C04_item_kept",
    "C04_arguments_read_back",
    "C04_other_attributes"
   ],
   "note": ""
  },
  {
   "property": "C05",
   "status": "proved",
   "theorems": [
    "C05_on_item_rejected",
    "C05_marker_damaged_rejected"
   ],
   "note": ""
  },
  {
   "property": "C06",
   "status": "proved",
   "theorems": [
    "C06_only_configured_matters",
    "C06_disabled_irrelevant",
    "C06_resolved",
    "C06_resolved_item",
    "C06_plain"
   ],
   "note": ""
  },
  {
   "property": "C07",
   "status": "proved",
   "theorems": [
    "C07_struct_accepted",
    "C07_enum_accepted",
    "C07_others_rejected",
    "C07_other_items_rejected"
   ],
   "note": ""
  },
  {
   "property": "C08",
   "status": "proved",
   "theorems": [
    "C08_struct_methods",
    "C08_enum_methods"
   ],
   "note": ""
  },
  {
   "property": "C09",
   "status": "proved",
   "theorems": [
    "C09_struct_projected",
    "C09_struct_nothing_else",
    "C09_struct_no_enum",
    "C09_enum_projected",
    "C09_enum_nothing_else",
    "C09_enum_no_struct"
   ],
   "note": "A field written pub(self) gets pub(__self) (finding F7); the field-visibility clause excludes that spelling, which C13_pub_self_refuted shows is necessary."
  },
  {
   "property": "C10",
   "status": "proved",
   "theorems": [
    "C10_struct_generics",
    "C10_enum_generics",
    "C10_struct_methods",
    "C10_enum_methods",
    "C10_helper_generics",
    "C10_trait_impls"
   ],
   "note": "For items whose generics are in Rust's order (lifetimes first), which rustc enforces."
  },
  {
   "property": "C11",
   "status": "proved",
   "theorems": [
    "C11_unique",
    "C11_fresh",
    "C11_field_binders_refuted"
   ],
   "note": "C11_field_binders_refuted is finding F3: binders inside field types are not looked at."
  },
  {
   "property": "C12",
   "status": "proved",
   "theorems": [
    "C12_struct_names",
    "C12_enum_names",
    "C12_only_types_exposed"
   ],
   "note": ""
  },
  {
   "property": "C13",
   "status": "partial",
   "theorems": [
    "C13_struct_types",
    "C13_enum_types",
    "C13_struct_methods",
    "C13_enum_methods",
    "C13_struct_fields",
    "C13_helper",
    "C13_struct_types_partial",
    "C13_enum_types_partial",
    "C13_struct_methods_partial",
    "C13_enum_methods_partial",
    "C13_struct_fields_partial",
    "C13_helper_partial",
    "C13_pub_self_refuted",
    "C13_grows_refuted"
   ],
   "note": "Editions 2018 and later: full, for every visibility, given that the generated visibility is legal at all. The spelling pub(self)/pub(in self) becomes pub(__self) (finding F7): in those editions this is a compile error (C13_pub_self_refuted), in the 2015 edition a module called __self at the crate root gains access (C13_grows_refuted); the _partial theorems cover every edition without that spelling, and that the result is legal."
  },
  {
   "property": "C14",
   "status": "proved",
   "theorems": [
    "C14_project_in_place"
   ],
   "note": "Hypothesis `program`: the expansion is the derive's and the user's names do not collide with the generated ones (otherwise the generated code does not compile or means something else: C42)."
  },
  {
   "property": "C15",
   "status": "proved",
   "theorems": [
    "C15_project_ref_in_place",
    "C15_only_shared"
   ],
   "note": "Hypothesis `program`: the expansion is the derive's and the user's names do not collide with the generated ones (otherwise the generated code does not compile or means something else: C42)."
  },
  {
   "property": "C16",
   "status": "proved",
   "theorems": [
    "C16_disjoint"
   ],
   "note": "Hypothesis `program`: the expansion is the derive's and the user's names do not collide with the generated ones (otherwise the generated code does not compile or means something else: C42)."
  },
  {
   "property": "C17",
   "status": "proved",
   "theorems": [
    "C17_project",
    "C17_project_replace"
   ],
   "note": "Hypothesis `program`: the expansion is the derive's and the user's names do not collide with the generated ones (otherwise the generated code does not compile or means something else: C42)."
  },
  {
   "property": "C18",
   "status": "proved",
   "theorems": [
    "C18_replace"
   ],
   "note": "Hypothesis `program`: the expansion is the derive's and the user's names do not collide with the generated ones (otherwise the generated code does not compile or means something else: C42). `replaceable` excludes the field names of finding F4, for which project_replace does not compile."
  },
  {
   "property": "C19",
   "status": "proved",
   "theorems": [
    "C19_exact",
    "C19_replace_panics",
    "C19_conservation"
   ],
   "note": "Hypothesis `program`: the expansion is the derive's and the user's names do not collide with the generated ones (otherwise the generated code does not compile or means something else: C42). `replaceable` excludes the field names of finding F4, for which project_replace does not compile."
  },
  {
   "property": "C20",
   "status": "proved",
   "theorems": [
    "C20_same_on_all_compilers"
   ],
   "note": "Hypothesis `program`: the expansion is the derive's and the user's names do not collide with the generated ones (otherwise the generated code does not compile or means something else: C42). `replaceable` excludes the field names of finding F4, for which project_replace does not compile."
  },
  {
   "property": "C21",
   "status": "proved",
   "theorems": [
    "C21_pinned_until_dropped"
   ],
   "note": "Values in #[pin] fields are taken to be !Unpin (otherwise Pin lets safe code move them). The operations, including those of a PinnedDrop body, are ModelHistory.step; what they may do with a projection depends on the value that the generated method returned."
  },
  {
   "property": "C22",
   "status": "proved",
   "theorems": [
    "C22_destroyed_once",
    "C22_accounted",
    "C22_unpin_destroyed_once",
    "C22_unpin_accounted"
   ],
   "note": "Values that the caller owns and forgets (mem::forget) stay in the owned list. After an abort only 'at most once' is claimed."
  },
  {
   "property": "C23",
   "status": "proved",
   "theorems": [
    "C23_exact",
    "C23_exact_elsewhere",
    "C23_drop_in_place",
    "C23_drop_elsewhere"
   ],
   "note": "Hypothesis `program`: the expansion is the derive's and the user's names do not collide with the generated ones (otherwise the generated code does not compile or means something else: C42). In place and elsewhere, started normally or while unwinding."
  },
  {
   "property": "C24",
   "status": "proved",
   "theorems": [
    "C24_no_reentry"
   ],
   "note": ""
  },
  {
   "property": "C25",
   "status": "proved",
   "theorems": [
    "C25_exact",
    "C25_exact_elsewhere",
    "C25_no_drop_impl",
    "C25_only_fields",
    "C25_only_fields_elsewhere"
   ],
   "note": "Hypothesis `program`: the expansion is the derive's and the user's names do not collide with the generated ones (otherwise the generated code does not compile or means something else: C42)."
  },
  {
   "property": "C26",
   "status": "partial",
   "theorems": [
    "C26_drop_rejected_partial",
    "C26_refuted",
    "C26_no_conflict"
   ],
   "note": "Rust's rules (nominal types, orphan rule, selection, overlap) are the hypotheses `rust`, `solution`, `headers_ok`, `refuter` of SpecTraits.v; `uncaptured` says that the user's names are not ones the expansion hides. The impl must apply to some instance of the type. Proved for every item with `PinnedDrop`, and without it for every instance that is `Sized`. For a type that is never `Sized` (a last field `[u8]`) the statement is false of the code: C26_refuted, finding F19. C26_no_conflict is proved in full. Nothing is assumed about `::pin_project`, which the user may redefine: C26_renamed_crate is the program of tests/ui/pin_project/override-priv-mod.rs."
  },
  {
   "property": "C27",
   "status": "proved",
   "theorems": [
    "C27_exactly_one",
    "C27_rejected"
   ],
   "note": "Rust's rules (nominal types, orphan rule, selection, overlap) are the hypotheses `rust`, `solution`, `headers_ok`, `refuter` of SpecTraits.v; `uncaptured` says that the user's names are not ones the expansion hides. 'Needs exactly one' is stated per instance of the type: exactly one user impl applies."
  },
  {
   "property": "C28",
   "status": "proved",
   "theorems": [
    "C28_default"
   ],
   "note": "Rust's rules (nominal types, orphan rule, selection, overlap) are the hypotheses `rust`, `solution`, `headers_ok`, `refuter` of SpecTraits.v; `uncaptured` says that the user's names are not ones the expansion hides. "
  },
  {
   "property": "C29",
   "status": "proved",
   "theorems": [
    "C29_never"
   ],
   "note": "Rust's rules (nominal types, orphan rule, selection, overlap) are the hypotheses `rust`, `solution`, `headers_ok`, `refuter` of SpecTraits.v; `uncaptured` says that the user's names are not ones the expansion hides. "
  },
  {
   "property": "C30",
   "status": "proved",
   "theorems": [
    "C30_unsafe"
   ],
   "note": "Rust's rules (nominal types, orphan rule, selection, overlap) are the hypotheses `rust`, `solution`, `headers_ok`, `refuter` of SpecTraits.v; `uncaptured` says that the user's names are not ones the expansion hides. "
  },
  {
   "property": "C31",
   "status": "proved",
   "theorems": [
    "C31_same_impls",
    "C31_unused_parameters",
    "C31_changed_fields"
   ],
   "note": "Rust's rules (nominal types, orphan rule, selection, overlap) are the hypotheses `rust`, `solution`, `headers_ok`, `refuter` of SpecTraits.v; `uncaptured` says that the user's names are not ones the expansion hides. Three forms: the generated items are the same; parameters that only unpinned fields use do not matter; two compiling programs that differ in unpinned fields agree."
  },
  {
   "property": "C32",
   "status": "proved",
   "theorems": [
    "C32_unpin",
    "C32_unsafe_unpin"
   ],
   "note": "Rust's rules (nominal types, orphan rule, selection, overlap) are the hypotheses `rust`, `solution`, `headers_ok`, `refuter` of SpecTraits.v; `uncaptured` says that the user's names are not ones the expansion hides. The impl must apply to some instance of the type."
  },
  {
   "property": "C33",
   "status": "partial",
   "theorems": [
    "C33_same_types_partial",
    "C33_refuted"
   ],
   "note": "Rust's rules (nominal types, orphan rule, selection, overlap) are the hypotheses `rust`, `solution`, `headers_ok`, `refuter` of SpecTraits.v; `uncaptured` says that the user's names are not ones the expansion hides. The unrestricted statement is false of the code: C33_refuted, finding F1."
  },
  {
   "property": "C34",
   "status": "proved",
   "theorems": [
    "C34_packed_struct_rejected",
    "C34_packed_enum_rejected",
    "C34_other_reprs_irrelevant_struct",
    "C34_other_reprs_irrelevant_enum"
   ],
   "note": ""
  },
  {
   "property": "C35",
   "status": "proved",
   "theorems": [
    "C35_aligned",
    "C35_references",
    "C35_not_moved"
   ],
   "note": "Layouts and the compiler's borrow check of packed fields are those of ModelLayout.v (a reference that may be misaligned in some instance does not compile). Also: the destructor moves no field."
  },
  {
   "property": "C36",
   "status": "proved",
   "theorems": [
    "C36_accepts_exactly",
    "C36_undeclared_lifetime"
   ],
   "note": "`default fn drop` panics instead (finding F8) and so is not accepted; attributes, visibility, const/async/extern, generics and a `!` before the trait are not looked at by the macro. C36_undeclared_lifetime (finding F11): an impl that meets the conditions may still not compile after the body is moved."
  },
  {
   "property": "C37",
   "status": "proved",
   "theorems": [
    "C37_body_moved"
   ],
   "note": "What replacing Self/self does to the moved pieces is C38, C39, C44."
  },
  {
   "property": "C38",
   "status": "proved",
   "theorems": [
    "C38_types",
    "C38_bounds",
    "C38_expressions",
    "C38_generics",
    "C38_no_Self_left",
    "C38_unchanged",
    "C38_own_type_unchanged",
    "C38_qualified_value_refuted"
   ],
   "note": "Meanings are those of ModelMeaning.v, in an arbitrary universe of types. The hypotheses ask that `self` is used as a keyword, no lifetime of the type is rebound by for<..>, and macros do not tell `Self` from the type. Only the value `Self` of a qualified self type, possible in #[pinned_drop], is not spelled correctly (C38_qualified_value_refuted, finding F9)."
  },
  {
   "property": "C39",
   "status": "proved",
   "theorems": [
    "C39_respelled",
    "C39_fn_unchanged",
    "C39_module_path"
   ],
   "note": "Finding F6: the rule itself turns the path self::f() in macro input into __self::f(), and does not reach {self} in string literals. C39_module_path is the first of these."
  },
  {
   "property": "C40",
   "status": "proved",
   "theorems": [
    "C40_fails_loudly"
   ],
   "note": ""
  },
  {
   "property": "C41",
   "status": "partial",
   "theorems": [
    "C41_pinned_drop_panic_exact",
    "C41_pinned_drop_never_panics_refuted",
    "C41_default_fn_panics_refuted",
    "C41_pin_project_never_panics_partial",
    "C41_derive_panic_exact"
   ],
   "note": "#[pin_project] never panics (C41_pin_project_never_panics_partial: that macro only). For #[pinned_drop] the property is false of the code: C41_pinned_drop_panic_exact characterises the panicking inputs, the two _refuted theorems are finding F8."
  },
  {
   "property": "C42",
   "status": "partial",
   "theorems": [
    "C42_distinct_names_partial",
    "C42_replace_exact_partial",
    "C42_field_names_refuted",
    "C42_guard_refuted",
    "C42_projection_name_refuted",
    "C42_raw_name_refuted",
    "C42_parameter_name_refuted",
    "C42_constant_refuted"
   ],
   "note": "Holds when the chosen names differ from the generated ones (the hypothesis lists them); the five _refuted theorems show the unrestricted statement is false of the code (findings F4, F5, F10, F13)."
  },
  {
   "property": "C43",
   "status": "partial",
   "theorems": [
    "C43_safe_partial",
    "C43_refuted"
   ],
   "note": "Rust's rules (nominal types, orphan rule, selection, overlap) are the hypotheses `rust`, `solution`, `headers_ok`, `refuter` of SpecTraits.v; `uncaptured` says that the user's names are not ones the expansion hides. Proved for every program whose names are not captured. The unrestricted statement is false of the code: C43_refuted, finding F1 (a module of the user called _pin_project)."
  },
  {
   "property": "C44",
   "status": "proved",
   "theorems": [
    "C44_names_keep_meaning",
    "C44_capture_refuted"
   ],
   "note": "C44_capture_refuted (finding F12) shows that the condition on __self is necessary. Macro inputs are covered by C39, not here."
  },
  {
   "property": "C45",
   "status": "partial",
   "theorems": [
    "C45_struct_partial",
    "C45_enum_partial",
    "C45_bare_object_refuted",
    "C45_as_written_struct",
    "C45_as_written_enum"
   ],
   "note": "Partial: a field type with a trait object without lifetime bound outside of references and angle brackets (`x: dyn Tr`) means `dyn Tr + 'static` in the item and `dyn Tr + 'pin` in the projection (C45_bare_object_refuted); all other field types are covered. C45_as_written_*: all field types when bounds of trait objects are taken as written. Hypothesis `copied`: nothing the type refers to is captured in the new place; C33_refuted is an item where that fails."
  },
  {
   "property": "C46",
   "status": "proved",
   "theorems": [
    "C46_struct",
    "C46_enum",
    "C46_struct_calls",
    "C46_enum_calls"
   ],
   "note": "Outlives rules of RFC 1214 as a record of hypotheses (SpecOutlives.v); a concrete universe satisfies them."
  },
  {
   "property": "C47",
   "status": "proved",
   "theorems": [
    "C47_declarations"
   ],
   "note": "Mentions of parameters inside macro calls in types do not count as uses; the item is asked to use its parameters outside macro calls."
  },
  {
   "property": "C48",
   "status": "proved",
   "theorems": [
    "C48_other_impls"
   ],
   "note": "The trait MustNotImplDrop and the helper traits of the expansion live inside `const _`, so a user cannot name them; the model lets the program implement only traits it can name, and leaves the orphan rule to the compiler."
  },
  {
   "property": "C49",
   "status": "proved",
   "theorems": [
    "C49_body",
    "C49_signature",
    "C49_hidden_type_refuted"
   ],
   "note": "Variables, items and types are resolved by SpecBody.v. Restricted to impls for plain paths; for a qualified path see C38_qualified_value_refuted (F9). C49_hidden_type_refuted (F15) shows that the type's name must not be hidden by the body. The insides of nested items are not resolved beyond the names they use (they are copied unchanged, C37)."
  },
  {
   "property": "C50",
   "status": "proved",
   "theorems": [
    "C50_expansion",
    "C50_pinned_drop",
    "C50_stand_in",
    "C50_empty_brackets_refuted"
   ],
   "note": "SpecParse.v states the rules as computable checks on the syntax tree. C50_empty_brackets_refuted (F16) shows that impl types with empty angle brackets have to be excluded."
  },
  {
   "property": "C51",
   "status": "proved",
   "theorems": [
    "C51_destructor",
    "C51_derive"
   ],
   "note": ""
  },
  {
   "property": "C52",
   "status": "proved",
   "theorems": [
    "C52_exposed",
    "C52_hidden"
   ],
   "note": ""
  },
  {
   "property": "C53",
   "status": "proved",
   "theorems": [
    "C53_other_attributes",
    "C53_no_copies"
   ],
   "note": ""
  },
  {
   "property": "C54",
   "status": "proved",
   "theorems": [
    "C54_not_moved",
    "C54_captured_refuted"
   ],
   "note": "Hypotheses: `program` and `uncaptured`, i.e. the user's names do not collide with those of the generated code; C54_captured_refuted (finding F1) shows that this is necessary. `promise_kept` is the contract of `unsafe impl UnsafeUnpin`."
  },
  {
   "property": "C55",
   "status": "proved",
   "theorems": [
    "C55_reads_back",
    "C55_unambiguous",
    "C55_self",
    "C55_associated",
    "C55_value",
    "C55_constructor",
    "C55_generic_constructor_refuted"
   ],
   "note": "`source_ty` says which syntax trees a source text can contain (non-empty paths of words, const arguments that are literals, ...); `parses_ty` is the predicate of C50. C55_generic_constructor_refuted (F17): in expression position a generic type is spelled without `::`."
  },
  {
   "property": "C56",
   "status": "partial",
   "theorems": [
    "C56_struct_partial",
    "C56_refuted",
    "C56_enum",
    "C56_bounds"
   ],
   "note": "Rust's rules on Sized are the hypothesis `size_rules`. C56_struct_partial is an exact characterisation: it holds except when the unsized last field is pinned, the item has lifetime parameters and the Unpin impl is the default one; there the statement is false of the code (C56_refuted, finding F18)."
  },
  {
   "property": "C57",
   "status": "proved",
   "theorems": [
    "C57_no_leak"
   ],
   "note": "Excluded by hypothesis: pub(self), which is rewritten to pub(__self) (finding F7), and names that collide with generated ones (C42)."
  },
  {
   "property": "C58",
   "status": "proved",
   "theorems": [
    "C58_complete",
    "C58_silent",
    "C58_projected",
    "C58_methods",
    "C58_packed",
    "C58_others",
    "C58_compatible",
    "C58_incompatible"
   ],
   "note": "Which code sets off which lint is not modelled: the lint lists in SpecLints.v are the specification. Rules on nested levels: SpecLints.enter. Attributes of generated items are compared with the golden files in ConformExpand.v."
  },
  {
   "property": "C59",
   "status": "proved",
   "theorems": [
    "C59_send",
    "C59_sync",
    "C59_unpin"
   ],
   "note": "Rust's rules for auto traits are the hypothesis `auto_rules`; the program has no impls of these traits for the generated types."
  },
  {
   "property": "C60",
   "status": "proved",
   "theorems": [
    "C60_typed",
    "C60_replace",
    "C60_pinned_drop"
   ],
   "note": "The typing rules in SpecTyping.v cover the forms of code that the macro writes and are sufficient, not necessary, for rustc's; lifetimes are compared as written and borrows are not modelled. Names are taken to be resolved as in C42 and C52, sizes are C56."
  },
  {
   "property": "C61",
   "status": "proved",
   "theorems": [
    "C61_parameters",
    "C61_lifetime"
   ],
   "note": "Rust's rules for variance are the hypothesis `variance_rules`."
  },
  {
   "property": "C62",
   "status": "proved",
   "theorems": [
    "C62_reads_back",
    "C62_only_reading",
    "C62_pub_self_refuted"
   ],
   "note": "The reader in SpecItems.v knows the forms of items, statements and patterns that the macro writes. Excluded by hypothesis: pub(self), for which the statement is false (C62_pub_self_refuted, finding F7). source_item and parses_item say that the item is one the parser of Rust delivers. Literals, macros and verbatim tokens in types are opaque."
  },
  {
   "property": "C63",
   "status": "proved",
   "theorems": [
    "C63_project",
    "C63_stale",
    "C63_project_ref",
    "C63_project_replace",
    "C63_drop",
    "C63_shared_session",
    "C63_session",
    "C63_nested"
   ],
   "note": "The aliasing rules are those of Stacked Borrows, with the simplifications listed at the top of ModelAlias.v (a field is one location; every exclusive reference gets a unique tag, which is stricter than the real rules for targets that are not Unpin; no interior mutability). User code is any sequence of reads and writes through the reference it is given. Names as in C18: project_replace needs `replaceable`. C63_stale is the converse: the results are invalid once the caller's pointer has been written through. In C63_nested a field that is itself projected becomes a memory of its own, whose parts all start with the tags of the field."
  },
  {
   "property": "C64",
   "status": "proved",
   "theorems": [
    "C64_method",
    "C64_type",
    "C64_unpin",
    "C64_helper",
    "C64_drop",
    "C64_packed"
   ],
   "note": "Two runs of the derive are compared. The projected type is looked up where it belongs (next to the item if it was given a name, in the hidden block otherwise), because a user may name one projected type like the hidden name of another."
  },
  {
   "property": "C65",
   "status": "proved",
   "theorems": [
    "C65_every",
    "C65_only"
   ],
   "note": "In the model of C26 to C33: what an impl asks is read in the place where the impl stands, inside `const _`, and compared with what the item asks in its own place, for any interpretation of the traits. As there, nothing the user wrote is captured by hidden names (`uncaptured`)."
  },
  {
   "property": "C66",
   "status": "proved",
   "theorems": [
    "C66_transitive",
    "C66_not_unpin"
   ],
   "note": "Each level is a program as in C54; levels are linked by agreeing on whether the type of the field is Unpin. The destructor of the value in a field is a run of the next level that ends with that value gone. Whether the destructor of the inner value panics is not tied to the outer level's list of panicking values, so more runs are covered than there are."
  },
  {
   "property": "C67",
   "status": "proved",
   "theorems": [
    "C67_equivalent",
    "C67_returned"
   ],
   "note": "`Pin::set` is core's: drop the old value in place, store the new one, also when a destructor panicked; it is a definition of SpecSet.v, not code of the crate. In general the order in which pinned and unpinned fields are destroyed differs between the two. After an abort only the status is compared. Field names as for C18 (F4)."
  },
  {
   "property": "C68",
   "status": "proved",
   "theorems": [
    "C68_shared",
    "C68_parts"
   ],
   "note": "Sequentially consistent interleavings of the operations of ModelAlias.v, with its simplifications (no interior mutability). Whether the types of the projections may be sent or shared is C59; here the threads already have them. Each thread of C68_shared starts from the shared pointer t; threads that exchange derived pointers are not modelled."
  },
  {
   "property": "C69",
   "status": "proved",
   "theorems": [
    "C69_use",
    "C69_project",
    "C69_project_ref",
    "C69_drop",
    "C69_life",
    "C69_nested"
   ],
   "note": "Stacked Borrows with the exception for exclusive references to types that are not Unpin: these get a shared read-write tag without protector and without an access. np says which parts are not Unpin; that the whole value is not Unpin follows from C28 if a pinned field is not. Pointers into Unpin parts are excluded (storable), and C69_example_unpin shows why. project_replace is left out: it destroys the parts the pointers point to. C69_nested follows a program down to fields of fields; it does not return to the outer value, since the parts of a value are not split further, but all outer pointers to the part are shown to stay usable."
  },
  {
   "property": "C70",
   "status": "proved",
   "theorems": [
    "C70_never",
    "C70_equivalent",
    "C70_no_effect"
   ],
   "note": "C70_equivalent gives for each of the two programs that it is never Unpin, from which the equivalence follows. In C70_no_effect the two programs are supposed to agree on the where clause and on Unpin for the types of the pinned fields: these are other questions about the programs, which differ in the item."
  },
  {
   "property": "C71",
   "status": "proved",
   "theorems": [
    "C71_accepted",
    "C71_each",
    "C71_default",
    "C71_negative",
    "C71_unsafe",
    "C71_names"
   ],
   "note": "Assumes the laws of Rust of program_rust (those of C26 to C33, for all items) and that no item's names are captured (program_names). The least solution of the selection rules is used in the example; the theorems hold for every solution. Outside of traits the expansions meet only through module-level names (C71_names); what is inside const _ cannot be named from outside."
  },
  {
   "property": "C72",
   "status": "proved",
   "theorems": [
    "C72_project",
    "C72_stale",
    "C72_project_ref",
    "C72_project_replace",
    "C72_drop",
    "C72_shared_session",
    "C72_session",
    "C72_nested"
   ],
   "note": "The rules are those of Tree Borrows, with the simplifications listed at the top of ModelTree.v and ModelAlias.v (a field is one location, no interior mutability). `given_back` compares the states after a write through the caller's pointer: the same tags in the same states, plus tags that are disabled and not protected. C72_stale is the converse: the results are invalid once the caller's pointer has been written through. Names as in C18: project_replace needs `replaceable`."
  },
  {
   "property": "C73",
   "status": "proved",
   "theorems": [
    "C73_in_order",
    "C73_all_or_abort",
    "C73_number_of_panics",
    "C73_once",
    "C73_everyone",
    "C73_one_level"
   ],
   "note": "The body of PinnedDrop::drop is opaque: it runs at one point and panics or not; what it may do to the fields is C63 and C72. Paths of field numbers name the places."
  },
  {
   "property": "C74",
   "status": "proved",
   "theorems": [
    "C74_replace",
    "C74_panics"
   ],
   "note": "Names as in C18: needs `replaceable` (finding F4). The replacement is opaque. A field is identified by its number."
  },
  {
   "property": "C75",
   "status": "proved",
   "theorems": [
    "C75_shared",
    "C75_parts"
   ],
   "note": "As C68 for the threads and the schedules, as C72 for the rules; the same simplifications apply."
  },
  {
   "property": "C76",
   "status": "proved",
   "theorems": [
    "C76_use",
    "C76_project",
    "C76_project_ref",
    "C76_drop",
    "C76_life",
    "C76_nested"
   ],
   "note": "As C69 with the rules of C72; the same simplifications apply. C76_example_unpin shows why storable is needed. C76_nested follows a program down to fields of fields; it does not return to the outer value, since the parts of a value are not split further, but all outer pointers to the part are shown to stay usable."
  },
  {
   "property": "C77",
   "status": "proved",
   "theorems": [
    "C77_replace",
    "C77_project",
    "C77_project_ref",
    "C77_drop",
    "C77_replace_aborted",
    "C77_drop_aborted",
    "C77_replace_aborted_tree",
    "C77_drop_aborted_tree"
   ],
   "note": "For project_replace under replaceable (finding F4). The retag of the receiver is left out on the side of the operations, and so is the read of the discriminant, which is not an event of ModelRun.v. The destructors of the fields that the compiler adds are not part of the generated code; C77_drop lists them."
  },
  {
   "property": "C78",
   "status": "proved",
   "theorems": [
    "C78_project",
    "C78_project_ref",
    "C78_replace",
    "C78_drop",
    "C78_code"
   ],
   "note": "project_replace under replaceable (finding F4), for both items. The bug rust-lang/rust#47949 may be present for one of the items and absent for the other."
  },
  {
   "property": "C79",
   "status": "proved",
   "theorems": [
    "C79_project",
    "C79_project_ref",
    "C79_replace",
    "C79_drop"
   ],
   "note": "For names with which the generated code works (the conditions of C42, in program); project_replace under replaceable (finding F4), for both items."
  },
  {
   "property": "C80",
   "status": "proved",
   "theorems": [
    "C80_options",
    "C80_struct",
    "C80_enum"
   ],
   "note": "Acceptance by the macro; whether the impls that some options ask for are written by the user is the subject of C27, C30 and C48."
  },
  {
   "property": "C81",
   "status": "proved",
   "theorems": [
    "C81_project",
    "C81_project_ref",
    "C81_replace",
    "C81_drop"
   ],
   "note": "project_replace under replaceable (finding F4), for both items. After a panic the copied out values are destroyed elsewhere; that is C19."
  },
  {
   "property": "C82",
   "status": "proved",
   "theorems": [
    "C82_project_ref",
    "C82_project_replace"
   ],
   "note": "project_replace under replaceable (finding F4) and when no destructor of a pinned field panics (then nothing is returned, C19)."
  }
 ]
}