{"id": "C01", "title": "Argument list: exactly the documented language", "statement": "`#[pin_project(ARGS)]` accepts ARGS if and only if ARGS is a comma separated list (optional trailing comma) of `PinnedDrop`, `UnsafeUnpin`, `!Unpin`, `project = <ident>`, `project_ref = <ident>`, `project_replace`, `project_replace = <ident>`, with every kind given at most once, the given names textually distinct, not both `PinnedDrop` and `project_replace`, and not both `UnsafeUnpin` and `!Unpin`; and the options it then uses are exactly the ones written.", "quantifier": "every finite sequence of token trees given as arguments", "why_tests_cant": "the argument is an arbitrary token sequence; the UI tests cover about thirty spellings", "anchors": ["pin-project-internal/src/pin_project/args.rs: Args::parse, parse_value"]}
{"id": "C02", "title": "Argument order does not matter", "statement": "Reordering the arguments of an accepted `#[pin_project(...)]` gives an accepted attribute with the same options.", "quantifier": "every accepted argument list and every permutation of it", "why_tests_cant": "there are up to 5! orders per subset with unboundedly many names; tests use a handful", "anchors": ["pin-project-internal/src/pin_project/args.rs: Args::parse"]}
{"id": "C03", "title": "Options that would be unsound together are never both in force", "statement": "No accepted use of the macro has both a `project_replace` method and a generated `Drop` impl, and none has both an `UnsafeUnpin` controlled and a never-true `Unpin` impl.", "quantifier": "every argument token sequence and every struct or enum the derive accepts", "why_tests_cant": "must hold for every input that is accepted, in whatever order and shape the arguments are written", "anchors": ["pin-project-internal/src/pin_project/args.rs: Args::parse", "pin-project-internal/src/pin_project/derive.rs: make_proj_impl, make_drop_impl"]}
{"id": "C04", "title": "The attribute hands arguments and item over unchanged", "statement": "For every argument token sequence and every struct or enum, the attribute macro keeps all other attributes of the item in order, keeps the item's tokens, and the derive reads back exactly the argument tokens that were written, even when other attributes or macros add unrelated attributes in between.", "quantifier": "every argument token sequence, attribute list and item body", "why_tests_cant": "the hand-over is between two macro invocations and ranges over all token sequences and all attribute lists", "anchors": ["pin-project-internal/src/pin_project/attribute.rs: parse_attribute, Input::parse", "pin-project-internal/src/pin_project/args.rs: parse_args"]}
{"id": "C05", "title": "Misplaced, duplicated or missing marker attributes are rejected", "statement": "`#[pin]` on the item itself, a second `#[pin_project]`, a second `#[pin]` on the item inserted by another macro, or removal of the marker between the two stages, always ends in a compile error; nothing is silently ignored.", "quantifier": "every attribute list before and after the attribute stage", "why_tests_cant": "arbitrary attribute lists produced by arbitrary other macros", "anchors": ["pin-project-internal/src/pin_project/attribute.rs: Input::parse", "pin-project-internal/src/pin_project/args.rs: parse_args"]}
{"id": "C06", "title": "cfg-ed out fields and variants have no influence", "statement": "What is generated depends only on the fields and variants that survive `cfg` stripping and on the attributes that survive `cfg_attr` expansion: adding or removing stripped fields, variants or generic parameters, and writing out what a `cfg` or `cfg_attr` stands for, never changes the projection types, the methods, the `Unpin` condition or acceptance.", "quantifier": "every item, every truth assignment of cfg predicates", "why_tests_cant": "there are exponentially many cfg combinations; tests use any() and not(any()) only", "anchors": ["pin-project-internal/src/pin_project/attribute.rs: parse_attribute", "pin-project-internal/src/pin_project/derive.rs: parse_derive"]}
{"id": "C07", "title": "Which items are accepted", "statement": "The derive accepts a struct iff it has at least one field, is not `repr(packed)`, and no field has a duplicate `#[pin]` or a `#[pin]` with arguments; it accepts an enum iff it has at least one variant, some variant has a field, no variant has a discriminant or a `#[pin]`, it is not `repr(packed)`, `project_replace` is not given without a name, and no field has a bad `#[pin]`; in both cases only if the arguments are accepted and no given name equals the type's own. Every other item is rejected.", "quantifier": "every struct, enum or other item", "why_tests_cant": "acceptance ranges over unboundedly many shapes of items, fields, variants and attributes", "anchors": ["pin-project-internal/src/pin_project/derive.rs: parse_derive, validate_struct, validate_enum, ensure_not_packed", "pin-project-internal/src/utils.rs: SliceExt::position_exact"]}
{"id": "C08", "title": "Which methods exist", "statement": "On a struct `project` and `project_ref` always exist and `project_replace` exists iff the `project_replace` argument is given. On an enum each of the three exists iff its name argument is given. No other inherent method is generated.", "quantifier": "every accepted item and argument list", "why_tests_cant": "ranges over all items and all option combinations", "anchors": ["pin-project-internal/src/pin_project/derive.rs: make_proj_impl"]}
{"id": "C09", "title": "Shape of the projected types", "statement": "Every generated projected type is a struct (resp. enum) that has exactly the fields (resp. variants and fields) of the original in the same order with the same names and visibilities; a field's type is `Pin<&'pin mut T>` / `Pin<&'pin T>` / `PhantomData<T>` when the field is marked `#[pin]` and `&'pin mut T` / `&'pin T` / `T` when it is not, for `project`, `project_ref` and `project_replace` respectively.", "quantifier": "every accepted item, every field of every variant", "why_tests_cant": "unbounded number of fields and variants and arbitrary types", "anchors": ["pin-project-internal/src/pin_project/derive.rs: visit_fields, visit_variants, parse_struct, parse_enum"]}
{"id": "C10", "title": "Generics of the projected types", "statement": "The types returned by `project` and `project_ref` take the fresh lifetime first and then all generics of the original in order, carry all its bounds and where-predicates and additionally `Original<..>: 'pin`; the type returned by `project_replace` has exactly the generics and where clause of the original; the methods return these types applied to the same parameters.", "quantifier": "every generics list and where clause", "why_tests_cant": "arbitrary numbers and kinds of parameters, bounds, predicates", "anchors": ["pin-project-internal/src/pin_project/derive.rs: Context::new, parse_struct, make_proj_impl", "pin-project-internal/src/utils.rs: insert_lifetime_and_bound, insert_lifetime"]}
{"id": "C11", "title": "The inserted lifetime never clashes", "statement": "The lifetime inserted into generated code is `'pin` followed by as few underscores as possible such that no lifetime declared in the generics of the item (parameters and `for<..>` binders in bounds and where clauses) begins with it; in particular it differs from all of them and the search always terminates.", "quantifier": "every generics list with every set of lifetime names", "why_tests_cant": "termination and freshness for arbitrary name sets", "anchors": ["pin-project-internal/src/utils.rs: determine_lifetime_name", "pin-project-internal/src/pin_project/derive.rs: Context::new"]}
{"id": "C12", "title": "Named projected types are reachable, unnamed ones are not", "statement": "A projected type whose name was given is generated next to the original item under that name; one whose name was not given is generated only inside an anonymous `const` scope where no code outside the macro output can name it, as are all helper items.", "quantifier": "every accepted item and option combination", "why_tests_cant": "a statement about all items of every expansion", "anchors": ["pin-project-internal/src/pin_project/derive.rs: GenerateTokens, parse_struct, parse_enum"]}
{"id": "C13", "title": "Visibility never grows", "statement": "The projection methods and projected types are visible exactly where the original type is visible inside its crate, and never outside the crate; fields of projected types keep the visibility they have in the original.", "quantifier": "every visibility form, every module in which visibility is asked", "why_tests_cant": "all module trees and paths", "anchors": ["pin-project-internal/src/utils.rs: determine_visibility", "pin-project-internal/src/pin_project/derive.rs: parse_struct, parse_enum, make_proj_impl"]}
{"id": "C14", "title": "`project` gives access to every field in place", "statement": "Calling `project` on a pinned reference to any value returns, for every field of the active variant, a reference to that very field at its own address, wrapped in `Pin` iff the field is marked `#[pin]`; it does not write to, move, copy out or drop anything.", "quantifier": "every accepted item, every value of it, every address", "why_tests_cant": "unbounded field counts, every variant and value", "anchors": ["pin-project-internal/src/pin_project/derive.rs: visit_fields, visit_variants, parse_struct, parse_enum, make_proj_impl"]}
{"id": "C15", "title": "`project_ref` gives shared access to every field in place", "statement": "The same as for `project` with shared references: `Pin<&T>` for pinned fields and `&T` for the others, and no exclusive reference is ever produced.", "quantifier": "every accepted item, every value of it, every address", "why_tests_cant": "unbounded field counts, every variant and value", "anchors": ["pin-project-internal/src/pin_project/derive.rs: visit_fields, visit_variants, make_proj_impl"]}
{"id": "C16", "title": "Projected references do not alias", "statement": "The references returned by one `project` call point to pairwise disjoint places, all inside the projected value.", "quantifier": "every accepted item and value, every pair of fields", "why_tests_cant": "all pairs of fields of arbitrarily large types", "anchors": ["pin-project-internal/src/pin_project/derive.rs: visit_fields"]}
{"id": "C17", "title": "Projection methods cover every variant", "statement": "For every value of the type the projection methods take the arm of the value's own variant and produce the same-named variant of the projected type; no value falls through.", "quantifier": "every accepted enum and every value", "why_tests_cant": "all variant counts", "anchors": ["pin-project-internal/src/pin_project/derive.rs: visit_variants, parse_enum"]}
{"id": "C18", "title": "`project_replace` on success", "statement": "When no destructor panics, `project_replace(self, r)` returns a value holding the old unpinned fields (and `PhantomData` for the pinned ones), destroys each old pinned field exactly once, at its own address and in declaration order, and only afterwards stores `r` in the place of the old value without running any destructor of the old value as a whole.", "quantifier": "every accepted item with project_replace, every old value and replacement", "why_tests_cant": "all field layouts, pinned/unpinned patterns and nested values", "anchors": ["pin-project-internal/src/pin_project/derive.rs: proj_own_body, visit_fields, make_proj_impl", "src/lib.rs: UnsafeDropInPlaceGuard, UnsafeOverwriteGuard"]}
{"id": "C19", "title": "`project_replace` when destructors panic", "statement": "If a destructor of a pinned field panics, the remaining pinned fields are still destroyed, the extracted unpinned fields are destroyed, the replacement is still stored in `*self`, and the panic propagates: every value existing before the call is afterwards either destroyed exactly once or (the replacement) owned by `*self`.", "quantifier": "every accepted item, every value, every set of panicking destructors (at most one at a time escapes; a second one aborts the process)", "why_tests_cant": "every subset of destructors may panic at every point", "anchors": ["pin-project-internal/src/pin_project/derive.rs: proj_own_body, make_proj_impl", "src/lib.rs: UnsafeDropInPlaceGuard, UnsafeOverwriteGuard"]}
{"id": "C20", "title": "`project_replace` does not depend on rust-lang/rust#47949", "statement": "The guarantees of `project_replace` hold as well on a compiler that forgets to drop the value of a block's tail expression when a later destructor of that block panics.", "quantifier": "every value, every panic pattern, both compiler behaviours", "why_tests_cant": "needs both compiler behaviours and all panic points", "anchors": ["pin-project-internal/src/pin_project/derive.rs: proj_own_body"]}
{"id": "C21", "title": "Pinned fields never move before they are destroyed", "statement": "In every sequence of safe operations on a pinned value (`project` and use of its fields, `project_ref`, `project_replace`, `Pin::set`, final drop), with destructors panicking anywhere, a value stored in a pinned field stays at its address until its destructor has run there; it is never handed out by value and its memory is never overwritten before.", "quantifier": "every operation sequence, every panic pattern, every item and value", "why_tests_cant": "histories are unbounded", "anchors": ["pin-project-internal/src/pin_project/derive.rs: make_proj_impl, proj_own_body, visit_fields", "src/lib.rs: __private"]}
{"id": "C22", "title": "No double drop and no leak in any history", "statement": "In every such sequence each value that was ever stored is destroyed at most once, and at every point every value is accounted for: still stored in place, handed to the caller, or destroyed.", "quantifier": "every operation sequence, every panic pattern", "why_tests_cant": "histories are unbounded", "anchors": ["pin-project-internal/src/pin_project/derive.rs: proj_own_body, make_drop_impl", "src/lib.rs: UnsafeDropInPlaceGuard, UnsafeOverwriteGuard"]}
{"id": "C23", "title": "`PinnedDrop::drop` runs exactly once, first, and pinned", "statement": "When a value of a `#[pin_project(PinnedDrop)]` type is dropped, the user's `#[pinned_drop]` body runs exactly once, before any field is destroyed, receiving a `Pin<&mut Self>` to the value at its unchanged address; afterwards all fields are destroyed in declaration order even if the body panics.", "quantifier": "every accepted item, value, address, panic pattern", "why_tests_cant": "all values and panic points", "anchors": ["pin-project-internal/src/pin_project/derive.rs: make_drop_impl", "pin-project-internal/src/pinned_drop.rs: expand_impl"]}
{"id": "C24", "title": "The destructor body cannot re-enter itself by name", "statement": "Inside a `#[pinned_drop]` body the name `__drop_inner` never denotes the function that holds the body, so the body cannot run itself again; the generated trait method is `unsafe` so safe code cannot call it.", "quantifier": "every user body, at every nesting depth", "why_tests_cant": "arbitrary user bodies", "anchors": ["pin-project-internal/src/pinned_drop.rs: expand_impl", "src/lib.rs: PinnedDrop"]}
{"id": "C25", "title": "Without `PinnedDrop` nothing runs besides field destructors", "statement": "For a type without the `PinnedDrop` argument the expansion contains no `Drop` impl; dropping a value destroys the fields in declaration order and runs nothing else.", "quantifier": "every accepted item without the argument, every value", "why_tests_cant": "a statement about every expansion", "anchors": ["pin-project-internal/src/pin_project/derive.rs: make_drop_impl"]}
{"id": "C26", "title": "A hand-written `Drop` impl is rejected", "statement": "For every accepted item, adding any `impl Drop` that applies to some instance of the type is a compile error, whether or not `PinnedDrop` is given; without `PinnedDrop` and without a `Drop` impl the expansion itself never conflicts.", "quantifier": "every accepted item, every user Drop impl header", "why_tests_cant": "all generics and headers", "anchors": ["pin-project-internal/src/pin_project/derive.rs: make_drop_impl"]}
{"id": "C27", "title": "`PinnedDrop` argument and `#[pinned_drop]` impl go together", "statement": "With the argument, the program needs exactly one `PinnedDrop` impl for the type; without it any `#[pinned_drop] impl` for the type conflicts with the generated dummy impl, so a destructor body is never silently ignored.", "quantifier": "every accepted item, every PinnedDrop impl header", "why_tests_cant": "all generics and headers", "anchors": ["pin-project-internal/src/pin_project/derive.rs: make_drop_impl", "pin-project-internal/src/pinned_drop.rs: expand_impl"]}
{"id": "C28", "title": "Default mode: `Unpin` iff all pinned fields are", "statement": "Without `UnsafeUnpin` and `!Unpin` the type applied to any arguments is `Unpin` iff its where clause holds and the type of every field marked `#[pin]` (in any variant) is `Unpin` at those arguments.", "quantifier": "every accepted item, every instantiation, every surrounding program", "why_tests_cant": "all types, programs and instantiations; assert_unpin! tests fix one each", "anchors": ["pin-project-internal/src/pin_project/derive.rs: make_unpin_impl", "src/lib.rs: PinnedFieldsOf, AlwaysUnpin"]}
{"id": "C29", "title": "`!Unpin` mode: never `Unpin`", "statement": "With `!Unpin` the type is not `Unpin` for any type arguments.", "quantifier": "every accepted item, every instantiation, every surrounding program", "why_tests_cant": "all instantiations and programs", "anchors": ["pin-project-internal/src/pin_project/derive.rs: make_unpin_impl", "src/lib.rs: Wrapper, PinnedFieldsOf"]}
{"id": "C30", "title": "`UnsafeUnpin` mode: `Unpin` iff the user's unsafe impl applies", "statement": "With `UnsafeUnpin` the type at any arguments is `Unpin` iff its where clause holds and the user's `UnsafeUnpin` impl applies at those arguments; with no such impl it is never `Unpin`.", "quantifier": "every accepted item, every instantiation, every set of user impls", "why_tests_cant": "all instantiations and programs", "anchors": ["pin-project-internal/src/pin_project/derive.rs: make_unpin_impl", "src/lib.rs: Wrapper, UnsafeUnpin"]}
{"id": "C31", "title": "Unpinned fields never influence `Unpin`", "statement": "In default mode, changing the types of fields that are not marked `#[pin]` (or the generic parameters only they use) does not change when the type is `Unpin`.", "quantifier": "every pair of accepted items that agree on the pinned fields", "why_tests_cant": "relational statement over pairs of items", "anchors": ["pin-project-internal/src/pin_project/derive.rs: make_unpin_impl, visit_fields"]}
{"id": "C32", "title": "Users cannot supply their own `Unpin` impl", "statement": "For every accepted item, in every mode, any additional `impl Unpin` for any instantiation of the type conflicts with the generated one and is rejected; in default and `!Unpin` mode the same holds for `UnsafeUnpin`.", "quantifier": "every accepted item, every user impl header and where clause", "why_tests_cant": "all headers and where clauses", "anchors": ["pin-project-internal/src/pin_project/derive.rs: make_unpin_impl", "src/lib.rs: Wrapper, PinnedFieldsOf"]}
{"id": "C33", "title": "Helper-name capture cannot make a type wrongly `Unpin`", "statement": "The generated `Unpin` condition speaks about the same types as the fields of the original item, whatever names the user's program gives to its own modules and types.", "quantifier": "every accepted item, every naming environment", "why_tests_cant": "arbitrary user name environments", "anchors": ["pin-project-internal/src/pin_project/derive.rs: make_unpin_impl, GenerateTokens::into_tokens"]}
{"id": "C34", "title": "`repr(packed)` is rejected", "statement": "A struct or enum whose attributes contain `repr` with an item whose path is `packed` (in any `repr` attribute, at any position, in any of its forms) is rejected, and no other `repr` list is rejected for that reason.", "quantifier": "every attribute list", "why_tests_cant": "arbitrary attribute lists", "anchors": ["pin-project-internal/src/pin_project/derive.rs: ensure_not_packed"]}
{"id": "C35", "title": "All projected references are aligned", "statement": "If the expansion compiles, then even when a packed representation was smuggled past the attribute check, every field reference produced by the projection methods is aligned for the field's type, for every layout the compiler may choose; and the compiler moves no field before running its destructor.", "quantifier": "every accepted struct, every packing, every field alignment, every layout and address", "why_tests_cant": "all layouts and alignments", "anchors": ["pin-project-internal/src/pin_project/derive.rs: ensure_not_packed"]}
{"id": "C36", "title": "`#[pinned_drop]` accepts exactly the right impls", "statement": "`#[pinned_drop]` accepts an impl iff it has no arguments, is `impl PinnedDrop for <path type>`, not unsafe, has exactly one item and that is a safe method `drop` with the single parameter `(mut) self: [path::]Pin<&[lifetime] mut Self>` returning `()`.", "quantifier": "every impl block", "why_tests_cant": "arbitrary impl blocks", "anchors": ["pin-project-internal/src/pinned_drop.rs: attribute, validate_impl, validate_sig"]}
{"id": "C37", "title": "`#[pinned_drop]` keeps the impl and only moves the body", "statement": "The expansion implements the private `PinnedDrop` trait for the same self type with the same generics, where clause and attributes; its method is `unsafe fn drop(self: Pin<&mut Self>)` that calls, exactly once and with its own receiver, an inner function with the impl's generics whose body is the user's body.", "quantifier": "every accepted impl block", "why_tests_cant": "arbitrary impl blocks", "anchors": ["pin-project-internal/src/pinned_drop.rs: expand_impl"]}
{"id": "C38", "title": "Replacing `Self` in types keeps their meaning", "statement": "Everywhere the macros replace `Self` by the concrete type (field types, bounds, where clauses, receiver types, array lengths), the result means the same as before, including `Self::Assoc`, `<Self as Trait>::Assoc`, nested generics and macros in type position (as far as the macro itself does not tell `Self` from the spelled-out type), and no `Self` is left.", "quantifier": "every type expression, every self type", "why_tests_cant": "types are recursive", "anchors": ["pin-project-internal/src/utils.rs: ReplaceReceiver", "pin-project-internal/src/pin_project/derive.rs: parse_derive", "pin-project-internal/src/pinned_drop.rs: expand_impl"]}
{"id": "C39", "title": "Replacing `self`/`Self` in macro input touches nothing else", "statement": "In the tokens of a macro invocation every `self` becomes `__self`, every `Self` becomes the type (in angle brackets before `::`), at every nesting depth, and every other token is kept in order; input that contains the keyword `fn` anywhere is left alone.", "quantifier": "every token tree sequence", "why_tests_cant": "token trees are recursive", "anchors": ["pin-project-internal/src/utils.rs: visit_token_stream, contains_fn, prepend_underscore_to_self"]}
{"id": "C40", "title": "A failing `#[pinned_drop]` always fails loudly and once", "statement": "Whenever `#[pinned_drop]` rejects an impl, its output contains the error, and a dummy `PinnedDrop` impl with the same generics iff the self type is a path.", "quantifier": "every rejected impl block", "why_tests_cant": "all rejection causes", "anchors": ["pin-project-internal/src/pinned_drop.rs: attribute"]}
{"id": "C41", "title": "The macros never panic on user input", "statement": "On every input, the macros end in an expansion or a proper error, never in a panic, as long as no other macro tampers with the marker attribute.", "quantifier": "every item, argument sequence and impl block", "why_tests_cant": "all inputs", "anchors": ["pin-project-internal/src/pin_project/args.rs: parse_args", "pin-project-internal/src/pinned_drop.rs: validate_impl, expand_impl", "pin-project-internal/src/pin_project/derive.rs: parse_struct, visit_variants"]}
{"id": "C42", "title": "Names chosen by the user for fields, variants and types do not break the generated methods", "statement": "Whatever identifiers the user chooses for fields, variants, type parameters and projected types, the generated method bodies refer to the intended fields and types.", "quantifier": "every choice of identifiers", "why_tests_cant": "arbitrary identifiers", "anchors": ["pin-project-internal/src/pin_project/derive.rs: visit_fields, proj_own_body, make_proj_impl"]}
{"id": "C43", "title": "Safe code cannot get a movable type with a pinned field that must not move", "statement": "There is no accepted item, instantiation and surrounding program without unsafe code in which the type is `Unpin` while `project` hands out `Pin<&mut T>` for some `T` that is not `Unpin`.", "quantifier": "every accepted item, instantiation and surrounding safe program", "why_tests_cant": "the conjunction of all soundness properties over all programs", "anchors": ["pin-project-internal/src/pin_project/derive.rs: make_unpin_impl, visit_fields", "src/lib.rs: __private"]}
{"id": "C44", "title": "Moving a `#[pinned_drop]` body keeps what its names refer to", "statement": "In the code the compiler sees, every variable and function name in a `#[pinned_drop]` body refers to the same local variable, nested item or outside name as in the body the user wrote, with the inner function's parameter standing for `self`, as long as the body uses neither of the macro's own names `__self` and `__drop_inner` nor `Self` as a bare value; a body that declares a variable `__self` and later uses `self` gets the wrong variable.", "quantifier": "every accepted impl, every body at every nesting depth", "why_tests_cant": "arbitrary user bodies with arbitrary shadowing", "anchors": ["pin-project-internal/src/pinned_drop.rs: expand_impl", "pin-project-internal/src/utils.rs: ReplaceReceiver, prepend_underscore_to_self"]}
{"id": "C45", "title": "Projected field types mean the right types", "statement": "In the place where a projected type is defined, the type of each of its fields means `Pin<&'pin mut T>`, `Pin<&'pin T>` or `PhantomData<T>` for a pinned field and `&'pin mut T`, `&'pin T` or `T` for an unpinned one, where T is what the field's type means in the user's item, provided the new place does not capture a name the type refers to.", "quantifier": "every accepted struct or enum, every field type, every meaning of names, types and macros", "why_tests_cant": "all types, all scopes", "anchors": ["pin-project-internal/src/pin_project/derive.rs: visit_fields, parse_derive", "pin-project-internal/src/utils.rs: ReplaceReceiver"]}
{"id": "C46", "title": "Projected types are well formed and every pinned reference can be projected", "statement": "For all type, lifetime and const arguments that satisfy the where clause of a projected type, every reference `&'pin T` or `&'pin mut T` among its fields is to a type T that outlives 'pin; and this where clause asks nothing about lifetimes beyond the item's own where clause except that the item's type outlives the lifetime of the pinned reference, which every `Pin<&'pin mut Self>` guarantees.", "quantifier": "every accepted struct or enum with any generics and field types, every instance, every universe of types with Rust's outlives rules", "why_tests_cant": "all generics, all field types, all instances; a test instantiates a few", "anchors": ["pin-project-internal/src/pin_project/derive.rs: Context::new, visit_fields, make_proj_impl", "pin-project-internal/src/utils.rs: insert_lifetime_and_bound"]}
{"id": "C47", "title": "Generated types and impls are legally declared", "statement": "If an accepted item declares its parameters lifetimes first, all different and all used in its fields, and its fields and variants have different names, then so does every type the macro generates for it (the projected types and the helper struct), every type and const parameter of a generated impl occurs in the type the impl is for, and no method repeats a lifetime or shadows one of the impl: the generated code never fails with E0124, E0207, E0392, E0403, E0428, E0496 or E0592 because of these declarations.", "quantifier": "every accepted struct or enum with any generics, fields, variants and options", "why_tests_cant": "all generics and field types; a missing use or a clash shows up only for particular parameters", "anchors": ["pin-project-internal/src/pin_project/derive.rs: visit_fields, make_unpin_impl, make_drop_impl, make_proj_impl", "pin-project-internal/src/utils.rs: determine_lifetime_name, insert_lifetime"]}
{"id": "C48", "title": "Impls that the macro leaves to the user can be written", "statement": "The impls in the expansion and in the support crate conflict neither with each other nor with any impl of the surrounding program, unless the program implements for the item's type one of the traits the expansion implements itself: `Unpin`; `UnsafeUnpin`, unless that option was given; `Drop`; and `PinnedDrop`, unless that option was given. In particular `UnsafeUnpin` and `PinnedDrop` can be implemented when the option asks for it, and any other trait always.", "quantifier": "every accepted item, every set of impls in the surrounding program, every solution of the selection rules", "why_tests_cant": "all generics, all impl headers the user may write; a test tries a few", "anchors": ["pin-project-internal/src/pin_project/derive.rs: make_unpin_impl, make_drop_impl", "src/lib.rs: UnsafeUnpin, __private"]}
{"id": "C49", "title": "A destructor's body keeps its meaning when the macro moves it", "statement": "`#[pinned_drop]` moves the body of `drop` into a nested function. There every variable, nested item, path, type, cast, closure type, pattern, struct path, generic argument and macro call refers to what it refers to in the body as written; the receiver's type, the return type, the bounds and the where clause of the nested function are those of the impl. This holds for impls of plain type paths whose name is not hidden by a variable or item of the body, when the body avoids the two generated names.", "quantifier": "every accepted impl, every body, in every universe of types and every assignment of meanings to names, nested items and macros", "why_tests_cant": "bodies and types of any shape and depth; a missed place compiles to a different type only if a clashing name is in scope", "anchors": ["pin-project-internal/src/pinned_drop.rs: expand_impl", "pin-project-internal/src/utils.rs: ReplaceReceiver"]}
{"id": "C50", "title": "Rewritten and generated code obeys the grammar", "statement": "If the item, or the impl under `#[pinned_drop]`, obeys Rust's rules about types and paths, then so does everything the macros print: `dyn A + B` stands in parentheses behind `&`, `*`, `as` and `->`, generic arguments of a path in an expression or a pattern are written `::<..>`, and a qualified path `<T>` or `<T as p>` goes on with `::` and a segment. This covers the projected types and all other generated items with their signatures, the moved body and signature of a destructor, and the impl that stands in for a rejected one. For a `#[pinned_drop]` impl its type must be a plain path without empty angle brackets.", "quantifier": "every accepted struct or enum, every accepted or rejected impl, with types, generics and bodies of any shape and depth", "why_tests_cant": "all types and all places where a type is put into another or into an expression; a missing parenthesis or `::` fails only for particular types", "anchors": ["pin-project-internal/src/pin_project/derive.rs: visit_fields, make_unpin_impl, ensure_not_packed", "pin-project-internal/src/utils.rs: ReplaceReceiver::self_to_expr_path, self_to_qself", "pin-project-internal/src/pinned_drop.rs: expand_impl"]}
{"id": "C51", "title": "No code of the user gets into an unsafe context", "statement": "The operations of a `drop` method under `#[pinned_drop]` stand, after expansion, in the same safe or unsafe contexts in which they were written; the only operation added in an unsafe context is the generated call of the nested function, and the written method itself is not `unsafe`. The methods that `#[pin_project]` generates, whose bodies are unsafe, contain no type, and so no macro call, array length or other code, that the user wrote.", "quantifier": "every accepted `#[pinned_drop]` impl with a body of any shape and depth, every accepted struct or enum and every generated method", "why_tests_cant": "all bodies: user code that silently becomes unsafe still compiles and runs, so a test sees nothing", "anchors": ["pin-project-internal/src/pinned_drop.rs: expand_impl", "pin-project-internal/src/pin_project/derive.rs: make_proj_impl, proj_own_body, make_drop_impl"]}
{"id": "C52", "title": "Generated code takes no names from its surroundings", "statement": "Every type, trait, function or constant that a generated item refers to by a relative path is one that the user's item itself names (or the item, its parameters, `Self`, or something the expansion introduces inside its own `const _` block). What is generated next to the item refers only to names of the item. So names of the prelude may be shadowed or missing, as with `no_core`, without changing what generated code means.", "quantifier": "every accepted struct or enum, with any types, generics and options; every generated item and every path in it", "why_tests_cant": "all items and all sets of names in scope; a test shadows a few names around a few items", "anchors": ["pin-project-internal/src/pin_project/derive.rs: GenerateTokens::into_tokens, make_proj_impl, make_unpin_impl, make_drop_impl, visit_fields", "tests/no-core, tests/rust-2015"]}
{"id": "C53", "title": "Attributes of others do not matter", "statement": "Two items that differ only in attributes other than `#[pin]` (and, on the item itself, `#[pin_project]` and `#[repr]`) get exactly the same generated code, or are rejected with the same message. No attribute on a field or variant is copied to a generated type.", "quantifier": "every pair of items that differ by inserting and removing other attributes anywhere", "why_tests_cant": "all attributes in all places and combinations; a test tries a few doc comments", "anchors": ["pin-project-internal/src/pin_project/derive.rs: Context::new, ensure_not_packed, visit_fields, validate_enum", "pin-project-internal/src/utils.rs: SliceExt"]}
{"id": "C54", "title": "Safe code cannot move a pinned value that is not Unpin", "statement": "In every history of safe operations on a pinned value of a `#[pin_project]` type, at every instance of its generics, a value in a `#[pin]` field whose type is not `Unpin` stays at its address until its destructor has run there. Safe code may use everything that `Unpin` permits: `Pin::get_mut` on the projection of a pinned field whose type is `Unpin`, and `Pin::get_mut` on the value itself where the type is `Unpin` (then it may move the fields or the whole value). With `UnsafeUnpin` the user's `unsafe impl` is relied on.", "quantifier": "every item, every instance of its generics, every set of impls in the program, every operation sequence and panic pattern", "why_tests_cant": "it joins which instances are Unpin (trait selection over all types) with unbounded histories; tests try a few types and a few operations", "anchors": ["pin-project-internal/src/pin_project/derive.rs: make_unpin_impl, make_proj_impl, make_drop_impl", "src/lib.rs: UnsafeUnpin, __private::PinnedFieldsOf"]}
{"id": "C55", "title": "In macro input the tokens for `Self` are read as the impl's type", "statement": "Where `Self` stands in the input of a macro (in a `#[pinned_drop]` impl, or in a field type or where clause of a `#[pin_project]` item), the macro that reads a type there gets the type of the impl, and from `Self::x` it gets `<Type>::x`, whatever the type is; the tokens of two different types are never the same. A macro that reads an expression gets the same path for `Self` and `Self(..)` if the type has no generic arguments.", "quantifier": "every type, however deeply nested, and every token sequence behind `Self` that does not go on with a type", "why_tests_cant": "types nest without bound and the spelling of one part can be ambiguous only next to another (`dyn A + B`, `F() -> T`, `<T as Trait>::X`)", "anchors": ["pin-project-internal/src/utils.rs: ReplaceReceiver::self_ty, visit_token_stream"]}
{"id": "C56", "title": "A struct with an unsized last field can be projected", "statement": "Adding `#[pin_project]` without `project_replace` to a struct whose last field may be unsized (`T: ?Sized`, `[u8]`, `dyn Trait`) never makes the generated code need a size that is not there: all fields but the last of every generated struct, all fields of generated enums, and all parameters and results of generated methods are `Sized`. With `project_replace` the last field must be `Sized`. The bounds that the macro adds to the user's never ask for a size.", "quantifier": "every accepted item, every assignment of which types are Sized that follows Rust's rules, every combination of options", "why_tests_cant": "all positions of pinned fields, lifetimes and parameters; tests/pin_project.rs (dst) has no struct with both a lifetime and an unsized pinned field", "anchors": ["pin-project-internal/src/pin_project/derive.rs: visit_fields, make_unpin_impl, make_proj_impl", "src/lib.rs: AlwaysUnpin, Wrapper, PinnedFieldsOf"]}
{"id": "C57", "title": "No private type in a more visible interface", "statement": "If everything the interface of the item shows (the bounds of its parameters and its where clause, the types of its fields as far as the fields are visible) can be used wherever that part of the interface is visible, the same holds of every item the attribute generates: projected types, their methods, the hidden helper struct, the generated impls and functions. So adding `#[pin_project]` never gives a private-in-public error, even if a public type has private field types.", "quantifier": "every accepted item without `pub(self)`, every module and edition, every assignment of who may use the types and traits that the item mentions", "why_tests_cant": "all combinations of visibilities of the item, its fields and the types they mention; tests/pin_project.rs (private_type_in_public_type) has one item", "anchors": ["pin-project-internal/src/pin_project/derive.rs: make_unpin_impl, make_proj_impl, parse_struct, parse_enum", "pin-project-internal/src/utils.rs: determine_visibility"]}
{"id": "C58", "title": "Lint levels in generated code", "statement": "Whatever lint levels hold where the item stands: in all code that `#[pin_project]` adds the lints that generated code may set off are allowed (in projected types also dead code, missing documentation and size differences; in projection methods dead code), and every other lint keeps the level it has around the item. The lints against references to packed fields are forbidden in the generated assertion and nowhere else. The attributes clash with the surrounding code only if it forbids one of the lints they allow; if it forbids one that is allowed in all generated code, they do (E0453).", "quantifier": "every accepted item, every assignment of levels to lints around it, every generated item and method", "why_tests_cant": "levels are arbitrary functions from lints to levels, and items have many forms; tests/lint warns on all lints at once for some items and forbids a few groups", "anchors": ["pin-project-internal/src/pin_project/derive.rs: global_allowed_lints, proj_allowed_lints, GenerateTokens::into_tokens, make_proj_impl, ensure_not_packed", "tests/lint/lib.rs"]}
{"id": "C59", "title": "Auto traits of projections", "statement": "What `project` and `project_replace` return is `Send` exactly when all fields of the item are, what `project_ref` returns exactly when all fields are `Sync`; all of them are `Sync` exactly when all fields are. The results of `project` and `project_ref` are always `Unpin`, that of `project_replace` exactly when all fields are.", "quantifier": "every accepted item, every assignment of `Send`, `Sync` and `Unpin` to the types it mentions", "why_tests_cant": "a claim about all item shapes and all assignments of traits to field types, in both directions; a test shows one type that has the trait, and absence of a trait needs a compile-fail test per case", "anchors": ["pin-project-internal/src/pin_project/derive.rs: visit_fields, parse_struct, parse_enum, make_proj_impl"]}
{"id": "C60", "title": "Generated methods type-check", "statement": "The methods that `#[pin_project]` generates are well typed: calls of the library's functions get arguments of their parameter types, constructors get every field exactly once with its type, patterns bind every field, matches have an arm for every variant, no variable is used after it was moved, and bodies have the declared result type. Impls implement exactly the methods of their traits, with the trait's signatures and `unsafe` where the trait says so. With `project_replace` this holds exactly if no pinned field is named `__result` and no pinned field that another one follows is named `__guard`; with `PinnedDrop` it takes that the type implements `PinnedDrop`.", "quantifier": "every accepted item with legal fields, every combination of options", "why_tests_cant": "the body is built by iteration over arbitrarily many variants and fields, pinned or not, named or not; a test compiles the expansion of one item", "anchors": ["pin-project-internal/src/pin_project/derive.rs: visit_variants, visit_fields, proj_own_body, make_proj_impl, make_drop_impl, make_unpin_impl, ensure_not_packed", "src/lib.rs: __private"]}
{"id": "C61", "title": "Variance of projections", "statement": "What `project_ref` and `project_replace` return is covariant, contravariant or independent of a lifetime or type parameter of the item exactly if the item itself is; what `project` returns is invariant in every parameter the item depends on. What `project` and `project_ref` return is covariant in the lifetime of the borrow, so it can be shortened, and never contravariant in it.", "quantifier": "every accepted item, every parameter, every variance of the types it mentions", "why_tests_cant": "a claim about all item shapes and all variances of field types, in both directions; a test compiles one use", "anchors": ["pin-project-internal/src/pin_project/derive.rs: Context::new, visit_fields, make_proj_impl"]}
{"id": "C62", "title": "The output parses as the generated items", "statement": "The tokens that the derive of `#[pin_project]` emits are a sequence of well-formed Rust items followed by `const _: () = { .. };` with items in it: for every item that it accepts and that contains no `pub(self)`, a parser for items reads the emitted tokens, to the last one, as exactly the generated structs, enums, traits, impls, functions and `extern crate` with the generated attributes, visibilities, generics, where clauses, fields, signatures and bodies; no parameter, lifetime, name or type of the item can make the text break off, run together or be read differently.", "quantifier": "every accepted item: any number and kind of parameters, bounds, where predicates, variants, fields, and types of any depth; every combination of options", "why_tests_cant": "whether pieces that were parsed separately still parse once they are pasted into a template depends on what they are and on what they stand next to; golden files show the text for some thirty items", "anchors": ["pin-project-internal/src/pin_project/derive.rs: parse_derive, GenerateTokens::into_tokens, parse_struct, parse_enum, visit_fields, proj_own_body, make_unpin_impl, make_drop_impl, make_proj_impl, ensure_not_packed", "pin-project-internal/src/utils.rs: ReplaceReceiver"]}
{"id": "C63", "title": "Generated code respects the aliasing rules", "statement": "Under the rules of Stacked Borrows the generated methods and destructors have no undefined behaviour. `project` returns pointers to the fields that can all be read and written in any order, interleaved and repeatedly, until the caller uses the pinned pointer itself again, and afterwards that pointer works as before; `project_ref` only reads, so that its results and all shared references that existed before stay readable; `project_replace` may run any user destructor on a pinned field and overwrites the value at the end without having invalidated anything it still needs; the generated destructor may run any `PinnedDrop::drop`. Any sequence of such calls on a pinned pointer, mixed with direct uses of it and with lending it (`as_mut`, `as_ref`, to any depth) and doing the same with what it lends, is free of undefined behaviour; any number of shared pointers and results of `project_ref` can be used side by side. Projections nest: the pinned pointers in the result of `project` can in their turn be used, lent and projected as pointers to values of other pin-projected types, to any depth, and the pointer at the start works as before.", "quantifier": "every accepted item, every variant, every state of the memory in which the caller's pointer is valid, every user code in destructors, every use of the results, every sequence of calls of any length, every nesting of pin-projected types", "why_tests_cant": "undefined behaviour need not show up in a run; an interpreter such as Miri checks the accesses of one run of one test", "anchors": ["pin-project-internal/src/pin_project/derive.rs: parse_struct, parse_enum, visit_fields, proj_own_body, make_drop_impl, make_proj_impl", "src/lib.rs: UnsafeDropInPlaceGuard, UnsafeOverwriteGuard"]}
{"id": "C64", "title": "Options do not influence each other", "statement": "Each argument of `#[pin_project]` only has the effect it is documented to have. If the same definition is used twice with different attributes on it, then a projection method that both have and that is given the same name for its type (or none) is the same method with the same signature and body, and its projected type is the same type with the same fields; the impls of `Unpin` and `UnsafeUnpin` and the hidden helper type behind them only depend on the choice between default, `UnsafeUnpin` and `!Unpin`; the impls for destructors only depend on `PinnedDrop`; the check for packed fields depends on no option at all.", "quantifier": "every definition, every two lists of attributes on it with which it is accepted, every projection, every generated method, type and impl", "why_tests_cant": "a statement about pairs of runs over all combinations of arguments and all items; a test compares one item with one expected output", "anchors": ["pin-project-internal/src/pin_project/derive.rs: parse_struct, parse_enum, make_unpin_impl, make_drop_impl, make_proj_impl, ensure_not_packed", "pin-project-internal/src/pin_project/args.rs: Args"]}
{"id": "C65", "title": "Generated impls are for exactly the instances of the type", "statement": "For all type, lifetime and const arguments with which the item's own bounds and where clause hold, the projection methods can be called on that instance, and with `PinnedDrop` the generated `Drop` impl is for it as well: no impl is more special than the type, which Rust demands of `Drop` (E0366, E0367). Nor is any of them more general, so that the generated code never mentions an instance that is not well formed. This holds however the bounds are written: inline, implicit `Sized`, relaxed with `?Sized`, in where clauses with `for<..>`, and with `Self`.", "quantifier": "every accepted item, every program around it, every instantiation of its parameters, every interpretation of the traits in the bounds", "why_tests_cant": "a statement about all generics and all instantiations; a test instantiates one item with a few arguments", "anchors": ["pin-project-internal/src/pin_project/derive.rs: make_drop_impl, make_proj_impl", "pin-project-internal/src/utils.rs: ReplaceReceiver"]}
{"id": "C66", "title": "Structural pinning goes through all levels", "statement": "A `#[pin]` field may hold a value whose type also uses `#[pin_project]`, to any depth. If the innermost value is not Unpin then none of the values around it is, and whatever safe code does with any of them, in any order (projecting, replacing, assigning, dropping, also inside of `PinnedDrop::drop`), the memory of all the fields on the way to the innermost value stays untouched until the destructor of the innermost value has run in its place.", "quantifier": "every tower of accepted items of any height, every instance of their generics, every history of safe operations on all levels", "why_tests_cant": "the number of levels and the histories are unbounded; a test exercises one nesting and one order of operations", "anchors": ["pin-project-internal/src/pin_project/derive.rs: make_proj_impl, make_unpin_impl, make_drop_impl, proj_own_body", "src/lib.rs: UnsafeDropInPlaceGuard, UnsafeOverwriteGuard"]}
{"id": "C67", "title": "project_replace is Pin::set that returns the unpinned fields", "statement": "`self.project_replace(r)` is equivalent to `self.set(r)` except that the unpinned fields are moved out and returned instead of being dropped in place. The pinned value afterwards is the same, the pinned fields are destroyed in place in the same order, and the result owns exactly the values that `set` destroys in addition. Dropping the result at once runs the same destructors as `set`, and panics or aborts exactly if `set` does.", "quantifier": "every accepted item with project_replace, every value of it, every replacement, every set of panicking destructors", "why_tests_cant": "the number of fields, variants and panicking destructors is unbounded, and the equivalence is between two programs for all inputs", "anchors": ["pin-project-internal/src/lib.rs: `project_replace` method", "pin-project-internal/src/pin_project/derive.rs: make_proj_impl, proj_own_body", "src/lib.rs: UnsafeDropInPlaceGuard, UnsafeOverwriteGuard"]}
{"id": "C68", "title": "Projections used by several threads, whatever the schedule", "statement": "Any number of threads that share a Pin<&T> can call project_ref and read through what they get, as often as they like and in any interleaving of their steps (also inside the generated method): no undefined behaviour under the aliasing rules, no data race, every shared pointer that was readable stays readable, and afterwards every pointer can be written through exactly if it could before. The references that project returns can be moved to one thread each and used there for reading and writing, in any interleaving, without undefined behaviour or data race, and the original pinned pointer is as usable as before afterwards.", "quantifier": "every accepted item and value, any number of threads, any number of calls, copies and reads in each, every schedule of their steps", "why_tests_cant": "the schedules of any number of threads with any number of steps cannot be enumerated, and a data race or an aliasing violation need not show in a run", "anchors": ["pin-project-internal/src/pin_project/derive.rs: make_proj_impl, proj_body", "src/lib.rs"]}
{"id": "C69", "title": "A pinned field can keep pointers to itself", "statement": "Let a value that is not Unpin be pinned, and let some of its parts that are not Unpin (for instance a structurally pinned future) store pointers to themselves. Then these pointers can be used for reading and writing before, after and between calls of project, project_ref and the destructor, also while the references returned by project are in use, in any order, and inside the user's PinnedDrop::drop: there is no undefined behaviour under the aliasing rules, none of the pointers or references is invalidated by the use of another one, and reads through the stored pointers leave the results of project_ref valid. This also holds for values inside: a structurally pinned field that is not Unpin, a structurally pinned field of it and so on can be projected in turn, and all pointers the program has had on the way stay usable.", "quantifier": "every accepted item, every value of it, every set of stored pointers into parts that are not Unpin, every sequence of calls and uses, every depth of nesting", "why_tests_cant": "an aliasing violation has no effect in ordinary runs, and the ways in which a self-referential field can mix its own pointers with the projected ones are unbounded", "anchors": ["pin-project-internal/src/pin_project/derive.rs: make_proj_impl, proj_body, make_drop_impl", "src/lib.rs: Pin projections, PinnedDrop"]}
{"id": "C70", "title": "!Unpin and a pinned PhantomPinned field do the same", "statement": "An item with #[pin_project(!Unpin)], and the same item without the option but with one more field of type PhantomPinned marked #[pin], agree at every choice of the generic arguments on whether they are Unpin: neither ever is. One more field without #[pin], of type PhantomPinned or of any other type, has no effect on whether the item is Unpin.", "quantifier": "every accepted item, every place for the additional field in the struct or in one of the variants, every choice of generic arguments, every surrounding program that compiles", "why_tests_cant": "tests try a few structs at a few instances; the claim is about all items, instances and surrounding impls", "anchors": ["pin-project-internal/src/lib.rs: docs of #[pin_project], section !Unpin", "pin-project-internal/src/pin_project/derive.rs: make_unpin_impl", "src/lib.rs: __private::PhantomPinned"]}
{"id": "C71", "title": "Several items in one program do not interfere", "statement": "Any number of items with #[pin_project] can stand in one program, in the same or in different modules, also as field types of each other. The impls of the program are free of conflicts exactly if they are so with the expansion of each single item. Each item implements Unpin exactly as it would alone: in default mode if its where clause holds and its own pinned fields are Unpin, with !Unpin never, with UnsafeUnpin if an impl written by the user applies. At module level the expansions define only the names given as options, so items of one module clash only if the user gives a name twice.", "quantifier": "every list of accepted items, every choice of options for each, every set of user impls, every instance", "why_tests_cant": "tests use few items at a time, and a conflict or a wrong Unpin may come from one particular combination of items and impls", "anchors": ["pin-project-internal/src/pin_project/derive.rs: make_unpin_impl, make_drop_impl, GenerateTokens::into_tokens", "pin-project-internal/src/pin_project/derive.rs: parse_struct, parse_enum"]}
{"id": "C72", "title": "Generated code respects the newer aliasing rules too", "statement": "Under the rules of Tree Borrows, the other proposal for Rust's aliasing rules, the generated methods and destructors have no undefined behaviour either. The results of `project` can be read and written in any order and repeatedly; afterwards a write through the caller's pinned pointer has the same effect as if the call had never happened, except that the pointers made in the meantime are dead: using one of them then is undefined. `project_ref` only reads: its results, the caller's pointer and all shared references that existed before stay readable, and the caller can still write afterwards. `project_replace` may run any user destructor on the pinned fields and then overwrites the value through the pointer it kept; the generated destructor may run any `PinnedDrop::drop`. Any sequence of such calls on a pinned pointer, mixed with direct uses and with lending it (`as_mut`, `as_ref`, to any depth), any number of shared pointers side by side, and projections of projected fields to any depth are free of undefined behaviour.", "quantifier": "every accepted item, every variant, every state of the memory in which the caller's pointer is valid, every user code in destructors, every use of the results, every sequence of calls of any length, every nesting of pin-projected types", "why_tests_cant": "undefined behaviour need not show up in a run; an interpreter such as Miri checks the accesses of one run of one test, and a program that one set of rules accepts may be rejected by the other", "anchors": ["pin-project-internal/src/pin_project/derive.rs: parse_struct, parse_enum, visit_fields, proj_own_body, make_drop_impl, make_proj_impl", "src/lib.rs: UnsafeDropInPlaceGuard, UnsafeOverwriteGuard"]}
{"id": "C73", "title": "PinnedDrop at every level of nested values", "statement": "When a value of a pin-projected type is destroyed and its fields, or the fields of its fields, are again values of pin-projected types, then every level behaves as it would alone: the PinnedDrop::drop of a value runs, if its type asked for it, exactly once, on the value where it is and before its fields are destroyed; then the fields are destroyed in declaration order, each completely before the next. A panic in one of these destructors does not keep the others from running; the second panic aborts the process, and nothing runs after it.", "quantifier": "every nesting of pin-projected types to any depth, every choice of options per type, every variant, every set of destructors that panic, both normal return and unwinding", "why_tests_cant": "tests nest one or two levels and let at most one destructor panic; a field that is destroyed twice, or not at all, may only show for a certain combination of levels and panics", "anchors": ["pin-project-internal/src/pin_project/derive.rs: make_drop_impl", "src/lib.rs: __private::PinnedDrop"]}
{"id": "C74", "title": "project_replace on nested values", "statement": "When project_replace is called on a value whose fields are again values of pin-projected types, the destructors in the pinned fields run at every depth where the values are, each level's PinnedDrop::drop before its fields, in declaration order; no destructor in the other fields runs, their values are in the result; then the new value is stored. If one of these destructors panics at any depth, there is no result: the values of the other fields, which have been moved out, are destroyed with all that is in them, and the new value is stored all the same. The second panic aborts the process and nothing happens after it.", "quantifier": "every accepted item with project_replace, every variant, every value of its fields of any depth, every set of destructors that panic", "why_tests_cant": "the tests replace values of one level, and let at most one destructor panic", "anchors": ["pin-project-internal/src/pin_project/derive.rs: proj_own_body, make_proj_impl, make_drop_impl", "src/lib.rs: UnsafeDropInPlaceGuard, UnsafeOverwriteGuard"]}
{"id": "C75", "title": "Projections used by several threads, under the newer aliasing rules", "statement": "Under the rules of Tree Borrows, any number of threads that share a Pin<&T> can call project_ref and read through what they get, as often as they like and in any interleaving of their steps (also inside the generated method): no undefined behaviour, no data race, and every shared pointer that was readable stays readable. Afterwards a write through any pointer that could be written through before has the same effect as if the threads had not run, except that the pointers they made are dead. The references that project returns can be moved to one thread each and used there for reading and writing, in any interleaving, without undefined behaviour or data race, and afterwards the owner can write as before.", "quantifier": "every accepted item and value, any number of threads, any number of calls, copies and reads in each, every schedule of their steps, every state of the memory in which the shared pointer is readable", "why_tests_cant": "the schedules of any number of threads with any number of steps cannot be enumerated, and an aliasing violation need not show in a run", "anchors": ["pin-project-internal/src/pin_project/derive.rs: make_proj_impl, proj_body", "src/lib.rs"]}
{"id": "C76", "title": "A pinned field can keep pointers to itself under the newer aliasing rules too", "statement": "Under the rules of Tree Borrows, let a value that is not Unpin be pinned, and let some of its parts that are not Unpin store pointers to themselves. Then these pointers can be used for reading and writing before, after and between calls of project, project_ref and the destructor, also while the references returned by project are in use, in any order, and inside the user's PinnedDrop::drop: there is no undefined behaviour, none of the pointers or references is invalidated by the use of another one, and reads through the stored pointers leave the results of project_ref valid. This also holds for values inside: a structurally pinned field that is not Unpin, a structurally pinned field of it and so on can be projected in turn, and all pointers the program has had on the way stay usable.", "quantifier": "every accepted item, every value of it, every set of stored pointers into parts that are not Unpin, every sequence of calls and uses, every depth of nesting", "why_tests_cant": "undefined behaviour need not show up in a run, the ways in which a self-referential field can mix its own pointers with the projected ones are unbounded, and a program that one set of rules accepts may be rejected by the other", "anchors": ["pin-project-internal/src/pin_project/derive.rs: make_proj_impl, proj_body, make_drop_impl", "src/lib.rs: Pin projections, PinnedDrop"]}
{"id": "C77", "title": "Panics do not change what is done to the pinned value", "statement": "Whichever destructors panic, what project_replace does to the memory of the pinned value is the same: the fields that are not pinned are copied out, the destructors of the pinned ones run in place and the value is overwritten, and if a second panic aborts the process only the first of these things have happened. The same holds for dropping the value (the user's PinnedDrop::drop, then the destructors of the fields), and project and project_ref neither copy, overwrite nor destroy anything. In particular the accesses for which the absence of undefined behaviour is shown (C63, C69, C72, C76) are exactly those of every run, with or without panics, and there is no undefined behaviour before an abort either.", "quantifier": "every accepted item, every value of it, every set of panicking destructors, every behaviour of the user's destructors, every state before the call", "why_tests_cant": "a test has one set of panicking destructors, and tools that detect undefined behaviour only see the accesses of that run", "anchors": ["pin-project-internal/src/pin_project/derive.rs: make_proj_impl, proj_own_body, make_drop_impl", "src/lib.rs: UnsafeDropInPlaceGuard, UnsafeOverwriteGuard"]}
{"id": "C78", "title": "Types, visibilities and generics do not change what the methods do", "statement": "What project, project_ref, project_replace and dropping do at run time depends only on the names of the type, of its variants and of its fields, on which fields are marked #[pin], on the options given to the macro and on which destructors panic. Two items that agree in these and differ in field types, visibilities, other attributes, generics, where clauses or constants in scope give the same results, the same sequence of copies, destructor calls and writes, and the same outcome. Dropping does not even depend on which fields are pinned.", "quantifier": "every pair of accepted items of the same shape, every value, every replacement, every set of panicking destructors, every state before the call", "why_tests_cant": "it is a statement about pairs of arbitrary items; a test compares finitely many", "anchors": ["pin-project-internal/src/pin_project/derive.rs: proj_body, proj_own_body, make_proj_impl, make_drop_impl"]}
{"id": "C79", "title": "Names do not change what the methods do", "statement": "Renaming the type, its variants, its fields or its projected types, writing a struct as a tuple struct, or putting the same fields into a variant of an enum does not change what the generated methods do. For values with the same contents whose types mark the same positions with #[pin], project and project_ref return the same references in the same order, project_replace returns the same parts, makes the same copies, destructor calls and writes in the same order and leaves the same contents behind, also when destructors panic, and dropping runs the same destructors. The results differ only in names.", "quantifier": "every pair of accepted items, structs or enums, with any options that provide the method, every pair of values whose fields are pinned at the same positions, every set of panicking destructors (the same for both)", "why_tests_cant": "Tests run a few structs and enums with the names their authors chose; the claim compares all pairs of items, of whatever kind, with any names, number of fields and panics.", "anchors": ["pin-project-internal/src/pin_project/derive.rs: parse_struct, parse_enum, visit_fields, proj_own_body, make_proj_impl", "src/lib.rs: __private::UnsafeOverwriteGuard, UnsafeDropInPlaceGuard"]}
{"id": "C80", "title": "Every sensible combination of options can be asked for", "statement": "The options that can be in force for some argument list are exactly those where PinnedDrop and project_replace are not combined and the names for the projected types are identifiers different from each other: every other combination can be written. An item that is accepted with some options is also accepted with any of these, changing nothing but the arguments, as long as no name given is the name of the type and, for an enum, project_replace is given a name.", "quantifier": "every combination of options and names, every accepted struct or enum with any other attributes", "why_tests_cant": "Tests try some combinations on some items; the claim is that no combination, with any names, and no item is left out.", "anchors": ["pin-project-internal/src/pin_project/args.rs: Args::parse, parse_args", "pin-project-internal/src/pin_project/derive.rs: Context::new, parse_struct, parse_enum"]}
{"id": "C81", "title": "Every field is treated on its own", "statement": "What the generated code does to a field depends only on its position, its #[pin] mark and its value, and not on the other fields: how many there are, which of them are pinned and whether their destructors panic. project and project_ref give the same for it, project_replace does exactly one thing to it in its place (copies it out if it is not pinned, destroys it if it is) and returns the same for it, and dropping the value runs exactly its destructor, unless a second panic aborts the process.", "quantifier": "every pair of accepted items with any options, every pair of values and every position where both fields have the same mark (and value), every set of panicking destructors that does not abort", "why_tests_cant": "Tests look at a few structs as a whole; the claim compares all pairs of types with any number of other fields, marks and panics.", "anchors": ["pin-project-internal/src/pin_project/derive.rs: visit_fields, proj_own_body, make_proj_impl, make_drop_impl", "src/lib.rs: UnsafeDropInPlaceGuard, UnsafeOverwriteGuard"]}
{"id": "C82", "title": "The three projections of a value agree with each other", "statement": "project and project_ref of the same value list the same fields by the same names and refer to the same places, pinned in both or in none, for the same variant. project_replace returns, under the same names, exactly the values that project gives plain references to, each from the place that project refers to, and nothing for the fields that project gives pinned references to.", "quantifier": "every accepted item with any options that provide the methods, every value, every variant", "why_tests_cant": "Tests compare the methods on a few types; a wrong pairing of fields may show only for other numbers or orders of pinned fields.", "anchors": ["pin-project-internal/src/pin_project/derive.rs: visit_fields, proj_own_body, make_proj_impl"]}
