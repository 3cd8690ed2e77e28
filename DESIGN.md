# Formal model of pin-project

Subject: `taiki-e/pin-project` 1.1.10, the pinned commit in `/repo`, read as
text. pin-project is a pair of procedural macros and a small support crate, so
three things are modelled: the macro code (functions from token trees and
syntax trees to generated code), the generated code as it runs, and the rules
of Rust that the generated code relies on.

Properties are listed in `properties.jsonl`, the theorems for each in
`MANIFEST.json`.

## Layout of `rocq/theories`

| files | contents |
|---|---|
| `Base.v`, `Syntax.v`, `SyntaxInd.v`, `BodyInd.v` | identifiers, token trees, outcomes `Ok`/`Err`/`Panic`; the part of `syn`'s syntax the macros look at; the fragment of Rust they print; induction principles |
| `Model*.v` | definitions only, each citing the lines of `/repo` it models |
| `Spec*.v` | the vocabulary in which properties are stated |
| `Proofs*.v` | lemmas |
| `Prop*.v` | the property theorems, each closed by one lemma, followed by `Print Assumptions`, with an `Example` beside it that meets its hypotheses |
| `Examples*.v` | the concrete items, programs and universes of those examples |

| layer | model | models |
|---|---|---|
| utilities | `ModelUtils.v` | `pin-project-internal/src/utils.rs` 28-370: visibility, lifetime insertion, attribute search, `ReplaceReceiver` on types, bounds, expressions and macro input |
| arguments | `ModelArgs.v` | `pin_project/args.rs` 14-250 |
| attribute stage | `ModelAttribute.v` | `pin_project/mod.rs` 14-22, `attribute.rs` 27-66, and the compiler's `cfg`/`cfg_attr` expansion between the stages |
| derive stage | `ModelDerive.v` | `pin_project/derive.rs`, all functions |
| both stages | `ModelPipeline.v` | attribute, expansion by the compiler, derive |
| `#[pinned_drop]` | `ModelPinnedDrop.v` | `pinned_drop.rs` 13-233, with the visitor over statements and expressions |
| run time | `ModelRun.v` | an interpreter for the generated bodies: name resolution with shadowing, places, moves, drop glue, unwinding, the guards of `src/lib.rs` 181-349, and the compiler bug rust#47949 as a switch |
| histories | `ModelHistory.v` | sequences of safe operations on a pinned value, including those of a `PinnedDrop` body |
| `Unpin` | `ModelUnpin.v` | what safe code can do in addition where a field's type or the item's type is `Unpin` (`Pin::get_mut`) |
| meanings | `ModelMeaning.v` | what types, paths, bounds and constants mean in a scope, in an arbitrary universe |
| trait objects | `ModelObject.v` | default lifetimes of trait objects |
| traits | `ModelTraits.v` | the impls of `src/lib.rs`, trait selection, overlap, checking of impl bodies |
| aliasing | `ModelAlias.v` | pointers made and used by the generated methods and destructors, the guards of `src/lib.rs`, the rules of Stacked Borrows |
| printing | `ModelPrint.v` | the `quote!` templates of `derive.rs` and `pinned_drop.rs` and `syn`'s printing, as tokens (C62) |
| layout | `ModelLayout.v` | field offsets and packing, the borrow check of `__assert_not_repr_packed`, moving out of a packed value before dropping it |
| visibility | `SpecVis.v` | module trees and Rust's visibility rules |

## How each property is proved

| id | method |
|---|---|
| C01, C02, C03 | the parser is sound and complete for a declarative grammar (`SpecArgs.v`), which is unambiguous; permutation and exclusivity follow. For C03 also on the generated impls |
| C04, C05 | composition of the stages; case analysis over attribute lists; what other macros may do between the stages is arbitrary for C05 |
| C06 | configuration is described by what it does not see: dropping a disabled field, variant or generic parameter, and writing out a `cfg` or `cfg_attr`, leave the result of both macros unchanged; an item with nothing left to configure is expanded as written |
| C07, C34 | `parse_derive` returns `Ok` iff a declarative predicate holds |
| C08, C09, C10, C12 | structural induction over fields, variants and generics; "nothing else is generated" is part of the statements |
| C11 | the search for a lifetime terminates and finds the shortest one, by induction over the declared lifetimes |
| C13 | visibilities as sets of modules |
| C14–C17 | evaluation lemma for the interpreter by induction over the field list, for all values, variants and field names |
| C18, C19, C20 | the same with drop glue and panics in any destructor; conservation as a permutation of identities; equality of both compilers' outcomes; `C19_exact` also says at which destructor an abort happens (`calls` in `SpecPanics.v`) |
| C21, C22 | invariant by induction over operation sequences of any length |
| C23, C25 | evaluation of the generated `Drop` impl and drop glue, started normally or while unwinding, in place or elsewhere; `C23_exact` and `C25_exact` also say at which destructor an abort happens (`SpecPanics.v`) |
| C24, C44 | resolution of names in nested scopes, by induction over bodies |
| C26–C33, C43, C48 | for every relation that solves the selection rules (so independent of the order of selection and of the treatment of cycles): unfolding at the generated impls, the helper struct and the library impls; overlap by unifying headers |
| C35 | arithmetic over all layouts with any packing; the check compiles iff every instance has only aligned fields |
| C36, C37, C40 | equivalence with a declarative predicate; shape of the output |
| C38, C39, C45 | mutual induction over types, bounds, expressions, token trees, for every universe and every assignment of meanings |
| C46 | every type built from things that outlive 'pin does, by mutual induction over types; the parameters do because the where clause names the item's type |
| C49 | bodies, signatures and generics are resolved into code over an arbitrary universe (`SpecBody.v`); equality by induction over bodies with a relation between the two scopes, on top of C38 |
| C50 | the side conditions of the grammar (`no_plus`, `value_path`, `qualified`) as boolean checks over the syntax (`SpecParse.v`); preserved by the replacement of `Self` (induction over types and bodies) and by every template |
| C51 | the operations of a body listed in order with their contexts (`SpecUnsafe.v`), preserved by the replacement of `Self`, by induction over bodies; for the derive, all types in all templates |
| C52 | the paths of every generated item are collected (`SpecScope.v`); each relative one comes from the item, by mutual induction over types for the replacement of `Self`, and by inspection of every template |
| C53 | the derive computes equal results from alike items, by induction over the relation between the attribute lists |
| C54 | the invariant of C21 for the fields whose type is not `Unpin`, extended to the operations that `Unpin` permits; if the item's type is `Unpin`, C28, C29 and C30 say that no pinned field is left out |
| C55 | a reader for the grammar of types and of the expressions in them (`SpecRead.v`: recursive descent over token trees, with fuel); by mutual induction over the syntax, reading what `ToTokens` prints gives the type back, before every token that does not go on with a type; with C39 this gives the statement about `Self` |
| C56 | Rust's rules on `Sized` as hypotheses on an arbitrary predicate on types (`SpecSized.v`); every field, parameter and result of every generated item is inspected, and the conditions are shown to be exact; which parameters of the library's types need a size is read off their declarations |
| C57 | who may use each path an item mentions is an arbitrary relation; `SpecReach.v` says what each kind of item shows to whom; every generated item is inspected. `pub(self)` is excluded (finding F7), and the names are assumed to be chosen apart as for C42 |
| C58 | `ModelLints.v` gives every generated item and method the attributes of `global_allowed_lints`, `proj_allowed_lints` and the `quote!`s, in order (compared with the golden files by `ConformExpand.v`); `SpecLints.v` says how levels nest and which lints generated code may set off; all forms of item are inspected. Which code sets off which lint is rustc's and clippy's business: the lists in `SpecLints.v` are the specification |
| C59 | Rust's rules for `Send`, `Sync` and `Unpin` of references, `Pin`, `PhantomData` and of structs and enums without impls of their own (`SpecAuto.v`), for any reading of which user types have them; then the type that each projection method returns is looked up among the generated items |
| C60 | `SpecTyping.v` gives typing rules for the statements, expressions and patterns that occur in generated bodies, the types of the library's functions and the signatures of the traits; scopes record which variables were moved. Every body template is typed, by induction over fields and variants; inversion of the rules gives the converse for the names of pinned fields |
| C61 | Rust's rules for the variance of references, `Pin`, `PhantomData`, structs and enums (`SpecVariance.v`), for any variance of the types that the user wrote; then as for C59 |
| C62 | a reader for items on top of that of C55 (`SpecItems.v`); every template prints what the reader takes back, up to the three ways to write the same thing in `SpecOutput.v`; then every part the derive fills in is shown to be of the kind the template needs: names that are no keywords, quoted lifetimes, types that parse after `Self` was replaced. `pub(self)` is excluded (finding F7) |
| C63 | `ModelAlias.v`: the rules of Stacked Borrows, and an interpreter that lists the pointers that a generated method or destructor makes, the reads and writes through them and the calls of user code, with arbitrary user code in the destructors; every body template is run symbolically with an invariant (each pointer still in use is on top of its own part), framed by the caller's stack, and sequences of calls go by induction; nested projections keep the entries of the outer pointers below that of the inner one |
| C64 | `SpecInterfere.v`: two items that differ in their attributes only; each method, type and impl is shown to be a function of the definition and of the one option that may determine it; that names of types do not collide follows from the rule that the given names are distinct |
| C65 | the model of traits (C26 to C33): the predicates of an impl hold of an instantiation exactly if those of the item do, because replacing `Self` and moving into `const _` keeps their meaning |
| C66 | `SpecNested.v`: a tower of values, each a program and history as in C54 and held by a pinned field of the one before; dropping such a field is a run of the next level; induction over the runs, with C54 at each level and C28-C30 to see that no level is `Unpin` |
| C67 | `SpecSet.v`: `Pin::set` as drop in place and overwrite (as in `ModelHistory.v`), and `drop(self.project_replace(r))`; both sides reduced to lists of destructor calls and the number of panics, as in C18, C19, C25 |
| C68 | `SpecThreads.v`: schedules as interleavings of lists of pointer operations (C63), threads with a common shared pointer; generic lemma (`ProofsThreads.v`): code that has only shared pointers emits only reads, shared retags and releases of its own protector; invariant over the interleaving: the stacks are the old ones below read-only entries, and a protected entry belongs to a thread inside `project_ref` |
| C69 | `SpecSelfRef.v`: the exception of the aliasing rules for exclusive references to types that are not `Unpin` as a map over the operations of C63 (such a reference becomes like a raw pointer); explicit list of the operations of `project`, `project_ref` and the destructor (`ProofsSelfRefOps.v`); per part of the value, an invariant on its stack: the caller's pointer and the stored pointers lie in one block of shared entries, with only unprotected entries above. A projected field that is not `Unpin` joins the block of its part, so the invariant carries over to fields of fields (`lives_within`) |
| C70 | `SpecPhantom.v`: an item with one more field, somewhere; the two programs side by side as in C31; corollaries of C28, C29 and C31 and of the fact that nothing makes `PhantomPinned` `Unpin` |
| C71 | `SpecProgram.v`: a program with a list of items, all expanded, each in its own module; the selection rules and laws of `SpecTraits.v` for all of them; each item's view of the program is a setting of C26 to C33 (`ProofsProgramView.v`); impls of two expansions never overlap because types and traits are nominal (`ProofsProgram.v`) |
| C72 | `ModelTree.v`: the rules of Tree Borrows for the operations of C63; the sequences that the generated code emits only use the newest pointer of each part, or a raw pointer after all that was made from it (`calm` in `ProofsAliasRun.v`), which the proof of C63 also shows; such a sequence keeps a simulation between the stack and the branch of the tree that ends in the newest pointer (`ProofsTree.v`); sequences of calls and nesting go by induction on the tree itself (`ProofsTreeSession.v`). This is not a corollary of C63: a raw pointer made from a reference is written through, then the pointer that the reference was made from is read, then the raw pointer is written through again; one set of rules accepts this and the other does not (`C72_other_rules_example`) |
| C73 | `ModelDestroy.v`: trees of values, each level in a program of its own; Rust's drop glue runs the generated `Drop::drop` of a level (`call_drop` of `ModelRun.v`) and then the fields, recursively. `SpecDestroy.v` lists the destructors of a tree in order, without reference to the generated code; `calls` (`SpecPanics.v`) cuts the list at the second panic. Induction on the tree (`ProofsDestroy.v`). `C73_one_level` shows that for one level the new glue is the one of C23 and C25. |
| C74 | the body of `project_replace` runs as in C18 and C19; each destructor it calls on a field is unfolded to the drop glue of C73 (`unfold_events` in `ModelDestroy.v`). `C18_replace` and `C19_exact` give the calls of the level; induction on them shows that the level stops no earlier than the destructors inside do (`ProofsReplaceNested.v`). |
| C75 | the schedules of C68 under the rules of C72. Code that has only shared pointers emits only reads, shared retags and releases (`shared_code`, C68). Invariant over the interleaving (`ProofsTreeThreads.v`): the tree of each part is the old one plus frozen tags, one per pointer, all of them different; a protected one belongs to a thread inside `project_ref`; the tags that the threads will still make are not in use. The references from `project` follow from `C72_project`, as any order of uses is permitted there. |
| C76 | C69 under the rules of C72, with the same explicit lists of operations and the same exception for types that are not `Unpin` (such a reference is a copy of the pointer it is made from). Invariant per part (`ProofsTreeSelf.v`): the caller's pointer and the stored pointers have the same ancestors, a write through them is permitted, and no tag made since the call is protected; a field that is `Unpin` is lent through one new tag below them. A projected field that is not `Unpin` joins the pointers of its part, so the invariant carries over to fields of fields (`self_within`) |
| C77 | A bridge between the two descriptions of the generated methods: the events of `ModelRun.v` (values, panics) and the operations of `ModelAlias.v` (pointers). `SpecDeeds.v` reads off both what happens to the value (a field copied out, the user's code called on a place, the value overwritten). The operations are computed once more, for every list of fields by induction (`ProofsDeeds.v`), and compared with the exact traces of C18, C19, C23 and C25; an abort leaves a prefix |
| C78 | Relational: two items are compared through a `shape` of their fields (names and `#[pin]`, `SpecShape.v`). The exact results and traces of C14, C15, C18, C19, C23 and C25 are functions of the shape, by induction on the list of fields. `C78_code` compares the generated code itself: items with the same `outline` get the same methods, parameters and bodies |
| C79 | Relational, like C78, but only the positions of the pinned fields have to agree (`pins`, `SpecNames.v`): the exact results of C14 to C25 without their names are functions of these, by induction on the list of fields. Structs may be compared with variants of enums |
| C80 | Completeness of the argument language: for every record of options that is `allowed` (`SpecChoice.v`) an argument list is built and read back with C01; C07 then gives acceptance for every item, since its other conditions do not mention the options |
| C81 | Relational, for one position (`same_mark`, `part`, `about` in `SpecAlone.v`): the part of the exact results and traces of C14 to C25 that is about this position is computed by induction on the list of fields |
| C82 | The results of two methods on the same value are related field by field (`agree_ref`, `agree_own` in `SpecAgree.v`), by induction on the list of fields |
| C47 | every mention of a parameter survives the replacement of `Self`, by mutual induction over types; the inserted lifetime is fresh (C11) and used because there is a field |
| C41 | explicit `Panic` outcome; exact characterisation of the inputs that panic |
| C42 | the interpreter resolves identifiers by name; exact condition on names |

## Assumptions about Rust

They are hypotheses of theorems (records in `Spec*.v`), never axioms, and for
each of them an `Example` builds a concrete instance.

* `rust`, `solution`, `headers_ok`, `refuter`, `refutes_drop` (`SpecTraits.v`):
  nominal types, the orphan rule, impl selection, well-formed impl headers, an
  overlap check that only uses requirements that really fail and knows nothing
  about the foreign associated type behind `PinnedFieldsOf`. `Sized` is required
  implicitly of every parameter without `?Sized`; a struct is `Sized` if its
  fields are (`refutes_sized`).
* `program` (`SpecRun.v`): the expansion is the derive's, and the user's names
  differ from the generated ones (C42 is about what happens otherwise).
* `copied`, `uncaptured` (`SpecMeaning.v`, `SpecTraits.v`): what the user wrote
  is not captured in the place where it is copied to.
* `outlives_rules`, `nominal`, `module_level` (`SpecOutlives.v`): which types
  outlive a lifetime.
* `size_rules` (`SpecSized.v`): which types are `Sized`.
* `auto_rules` (`SpecAuto.v`): which types are `Send`, `Sync` and `Unpin`.
* `variance_rules` (`SpecVariance.v`): how types vary with parameters.
* `layout_legal` (`ModelLayout.v`): what a compiler may choose as offsets.

`ModelAlias.v` (C63) defines the aliasing rules; they are those of Stacked Borrows
with the simplifications listed at the top of that file. `SpecThreads.v` (C68) adds
sequentially consistent interleavings (also for C75), `SpecSelfRef.v` (C69, C76) the exception for
exclusive references to types that are not `Unpin`, `ModelTree.v` (C72) the rules of
Tree Borrows with the same simplifications.

`SpecTyping.v` (C60) is not a hypothesis but a definition: typing rules for the
fragment of Rust in generated bodies.  They accept less than rustc does.

## Trusted base

* The Coq 8.16.1 kernel (including `vm_compute`).
* `Print Assumptions` for every property theorem says "Closed under the global
  context". The development loads seven axioms of Coq's own standard library
  (`Coq.ssr.ssrunder.Under_rel.*`, a sealed module of ssreflect that the
  standard library pulls in); no theorem depends on them. There are no axioms,
  no admitted proofs, no sections with leftover variables.
* The reading of `/repo` into `Model*.v`, which cannot be checked mechanically.
* The models of Rust's own rules in `ModelRun.v`, `ModelMeaning.v`,
  `ModelObject.v`, `ModelTraits.v`, `ModelLayout.v`, `SpecVis.v`, `SpecOutlives.v`,
  `SpecDecl.v`, `SpecBody.v`, `SpecParse.v`, `SpecUnsafe.v`, `SpecScope.v`, `SpecSized.v`, `SpecReach.v`,
  `SpecLints.v`, `SpecAuto.v`, `SpecVariance.v`, `SpecTyping.v`,
  `SpecItems.v`, `SpecOutput.v`, `ModelAlias.v`, `ModelTree.v`, `SpecThreads.v`, `SpecSelfRef.v`,
  `ModelDestroy.v` (drop glue of nested values).

## What is not modelled

* Spans, hygiene other than "call-site names", text of messages beyond what the
  code prints, order of several errors (`Base.v`).
* `syn`'s parsing of items, attributes and visibilities: items are given parsed
  (`ModelAttribute.v`); the parsing that pin-project itself does on token
  streams (arguments, `#[pin(..)]`, `repr`) is modelled.
* Attributes of generic parameters other than `cfg` (`ModelAttribute.v`).
* Expressions in types and bodies are restricted to a representative fragment
  (`Syntax.v`, `ModelPinnedDrop.v`): paths, calls, method calls, literals,
  blocks, closures, macros, lets, matches, nested items.  An `unsafe` block is
  a unary operator applied to a block.
* Names that a generated pattern binds may be taken by a constant in scope; C52
  is about paths, the patterns are the subject of C42.
* The value of a name-value attribute: any tokens (`ModelDerive.v`); not visited
  by the `Self` replacement (`ModelUtils.v`).
* The second visit of a spliced type by the visitor: shown to be the identity
  (`C38_unchanged`).
* The derive attribute stays on the item between the stages
  (`ModelPipeline.v`).
* One name space for types and values in `ModelMeaning.v` and `ModelRun.v`
  (stricter than Rust).
* In `ModelHistory.v` values in `#[pin]` fields are taken to be `!Unpin`,
  otherwise safe code may move them; `ModelUnpin.v` (C54) lifts this.
* A user may redefine the crate's name (`extern crate self as pin_project;`).
  The model of traits (`ModelTraits.v`) tells `extern crate pin_project` from
  `::pin_project` and assumes nothing about the latter; C45, C46, C56 and C60
  take it for the support crate.
* A destructor that panics while unwinding aborts at once (`ModelRun.v`).
* Which code sets off which lint (C58 takes the lists as given); the tests,
  examples and the `pin-project-lite`-like UI tests of the repository.

## Findings

Places where the code does not have the property in full. Each that can be
stated in the model has a `_refuted` theorem with a concrete item.

| id | finding | theorem |
|---|---|---|
| F1 | helper items are call-site names inside `const _`: a field type that mentions a user item called `_pin_project` (or like the hidden helper struct) is captured; with a crafted module this makes a type wrongly `Unpin` from safe code | `C33_refuted`, `C43_refuted`, `C54_captured_refuted` |
| F2 | `project = r#A, project_ref = A` passes the check that names differ | `C42_raw_name_refuted` |
| F3 | `for<'pin>` inside a field type is not looked at when the fresh lifetime is chosen | `C11_field_binders_refuted` |
| F4 | a pinned field called `__result`, or a pinned field `__guard` that is not the last one, breaks `project_replace` | `C42_field_names_refuted`, `C42_guard_refuted` |
| F5 | `project = __SProjectionRef` on a struct `S` clashes with the unnamed type | `C42_projection_name_refuted` |
| F6 | in macro input `self::f()` becomes `__self::f()`; `{self}` in format strings is not replaced | `C39_module_path`; consequence of `C39_respelled` |
| F7 | `pub(self)` becomes `pub(__self)`, which does not compile; in the 2015 edition `pub(in self)` can gain access this way | `C13_pub_self_refuted`, `C13_grows_refuted`, `C62_pub_self_refuted` |
| F8 | a macro item or `default fn drop` in a `#[pinned_drop] impl` panics | `C41_pinned_drop_never_panics_refuted`, `C41_default_fn_panics_refuted` |
| F9 | `impl PinnedDrop for <X as Tr>::Assoc`: the value `Self` is replaced without its qualified self type | `C38_qualified_value_refuted` |
| F10 | a user constant or unit struct with the name of a field (or `_0`) turns a binding into a pattern | `C42_constant_refuted` |
| F11 | `fn drop<'a>(self: Pin<&'a mut Self>)` is accepted but `'a` is undeclared afterwards; `const`, `async`, `extern`, `!PinnedDrop` are not looked at | `C36_undeclared_lifetime`; the rest seen from `C36_accepts_exactly` |
| F12 | a body that binds `__self` captures the receiver | `C44_capture_refuted` |
| F13 | a type or parameter called `_pin_project` breaks the expansion; so does a parameter with the name of the type | `C42_parameter_name_refuted` |
| F14 | a field `x: dyn Tr` (unsized, last) is `dyn Tr + 'static` in the item but `dyn Tr + 'pin` behind the reference in the projected type | `C45_bare_object_refuted` |
| F15 | a nested item or a variable of a `#[pinned_drop]` body with the name of the impl's type captures what was written `Self` | `C49_hidden_type_refuted` |
| F16 | `impl PinnedDrop for Foo<>`: empty brackets get no `::`, so the value `Self` becomes `Foo<>`, which is not an expression | `C50_empty_brackets_refuted` |
| F17 | in macro input the constructor `Self(..)` of a generic type becomes `Foo<T>(..)`, without `::`, which is not an expression | `C55_generic_constructor_refuted` |
| F18 | the hidden `Unpin` helper struct prints the pinned field types before its lifetime fields, so `struct Foo<'a, T: ?Sized> { x: &'a u8, #[pin] y: T }` gets a helper whose unsized field is not the last one | `C56_refuted` |
| F19 | the blanket `impl<T: Drop> MustNotImplDrop for T` has the implicit bound `T: Sized`: for a type that is never `Sized` (last field `[u8]`) a hand-written `impl Drop` is accepted | `C26_refuted` |
| F20 | a crate with `#![forbid(..)]` of a lint that the expansion allows (`deprecated`, `unreachable_pub`, ..) gets E0453 from every `#[pin_project]` | `C58_incompatible` |

## Checking the model against the repository

The model is compared with what the repository records about itself.  These are
tests of the model, not proofs, and no theorem uses them.

- `ConformExpand.v`: all 33 items of `tests/expand` and their `#[pinned_drop]`
  impls.  The printed expansion (`ModelPrint.v`) equals the recorded one token by
  token, apart from trailing commas.
- `ConformUi.v`: 93 items and 25 impls of `tests/ui` (the message the model gives
  is the one in the `.stderr` file), and 143 items and impls of the run-time
  tests (accepted).
- `ConformRun.v`: the values and scopes of `tests/drop_order.rs`, run by the
  interpreter; the destructors run in the order the test asserts.
- `ConformTraits.v`: the items and impls of `tests/proper_unpin.rs` and
  `tests/unsafe_unpin.rs` (`ConformTests.v`), each in its module, as one program.
  The program compiles, and all 34 `assert_unpin!` and `assert_not_unpin!` hold
  in it.
- `ConformConflicts.v`: the 18 items of `tests/ui` with an impl for which the
  compiler reports E0119.  Each is well formed, has no conflict without that
  impl, and has one with it.

The files are generated from `/repo/tests` by the scripts in `conform/`.

## Wrong programs

`seeded/LOG.jsonl` records edits of the model that correspond to realistic
bugs, the theorems whose proofs no longer go through, and the theorems that
were tightened because they still did.
