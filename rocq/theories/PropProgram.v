(** C71: any number of items in one program. *)
From Coq Require Import String List Bool.
From Verif Require Import Base Syntax ModelArgs ModelUtils ModelDerive ModelMeaning ModelTraits.
From Verif Require Import SpecArgs SpecDerive SpecLifetime SpecExpand SpecRun SpecMeaning SpecTraits SpecProgram.
From Verif Require Import ProofsProgram ProofsProgramView Examples ExamplesTraits ExamplesProgram.
Import ListNotations.
Open Scope string_scope.
Open Scope list_scope.

(** The impls of the program are free of conflicts exactly if, for each of the
    items, they are so with the expansion of this item alone. *)
Theorem C71_accepted : forall p fails, program_rust p -> program_names p -> pr_items p <> [] ->
  (program_coherent p fails <-> forall x, In x (pr_items p) -> coherent (only p x) fails).
Proof. intros p fails Hr Hn. exact (coherent_iff p Hr Hn fails). Qed.
Print Assumptions C71_accepted.

(** Each item of a program that compiles meets the conditions under which C26
    to C33, C43 and C70 are proved for one item and everything around it. *)
Theorem C71_each : forall p holds fails l1 x l2,
  program_compiles p holds fails -> program_names p -> pr_items p = l1 ++ x :: l2 ->
  compiles (view p holds x (l1 ++ l2)) holds fails.
Proof. exact c71_view. Qed.
Print Assumptions C71_each.

(** So each item is [Unpin] as if it were alone: in default mode if its own
    pinned fields are, *)
Theorem C71_default : forall p holds fails x a s l,
  program_compiles p holds fails -> program_names p -> In x (pr_items p) -> options (attrs_of (en_item x)) a -> ar_unpin a = UDefault ->
  (holds (unpin (only p x)) (item_at (only p x) s l) <->
   where_holds (only p x) holds s l /\
   forall f, pinned_field (only p x) f -> holds (unpin (only p x)) (type_at (only p x) s l f)).
Proof. exact c71_default. Qed.
Print Assumptions C71_default.

(** with [!Unpin] never, *)
Theorem C71_negative : forall p holds fails x a s l,
  program_compiles p holds fails -> program_names p -> In x (pr_items p) -> options (attrs_of (en_item x)) a -> ar_unpin a = UNegative ->
  ~ holds (unpin (only p x)) (item_at (only p x) s l).
Proof. exact c71_negative. Qed.
Print Assumptions C71_negative.

(** with [UnsafeUnpin] if an impl that a user wrote applies. *)
Theorem C71_unsafe : forall p holds fails x a s l,
  program_compiles p holds fails -> program_names p -> In x (pr_items p) -> options (attrs_of (en_item x)) a -> ar_unpin a = UUnsafe ->
  (holds (unpin (only p x)) (item_at (only p x) s l) <->
   where_holds (only p x) holds s l /\
   exists y, In y (pr_impls p) /\ applies (only p x) holds y (unsafe_unpin (only p x)) (item_at (only p x) s l)).
Proof. exact c71_unsafe. Qed.
Print Assumptions C71_unsafe.

(** Around the items the expansions define only the names given as options, so
    two items of a module clash only if the user gives a name twice. *)
Theorem C71_names : forall m : list (item * args * expansion),
  (forall it a e, In (it, a, e) m -> parse_derive it = Ok e /\ options (attrs_of it) a) ->
  flat_map (fun x => name_of (fst (fst x)) :: flat_map introduces (exposed (snd x))) m =
  flat_map (fun x => name_of (fst (fst x)) :: flat_map (fun k => opt_given k (snd (fst x))) all_proj) m.
Proof. exact c71_names. Qed.
Print Assumptions C71_names.

(** [Foo<T> { #[pin] a: T }], [Bar<T> { #[pin] a: Foo<T>, b: PhantomPinned }] and, with
    [!Unpin], [Baz<T> { #[pin] a: Bar<T> }]: [Bar<u8>] is [Unpin] because [Foo<u8>]
    is, [Bar<PhantomPinned>] is not, [Baz<u8>] is not. *)
Example C71_example :
  program_compiles mo_prog mo_holds mo_fails /\ program_names mo_prog /\
  (forall x, In x (pr_items mo_prog) -> options (attrs_of (en_item x)) (mo_args (en_item x))) /\
  mo_holds (XInst (XLib "Unpin") []) (XInst (XUsr "Bar") [DTy (usr "u8")]) /\
  ~ mo_holds (XInst (XLib "Unpin") []) (XInst (XUsr "Bar") [DTy phantom_pinned_]) /\
  ~ mo_holds (XInst (XLib "Unpin") []) (XInst (XUsr "Baz") [DTy (usr "u8")]).
Proof.
  split; [exact mo_compiles|]. split; [exact mo_names|]. split; [exact mo_options|].
  split; [exact mo_bar_unpin|]. split; [exact mo_bar_not|exact mo_baz_not].
Qed.
Example C71_names_example :
  flat_map (fun x => name_of (fst (fst x)) :: flat_map (fun k => opt_given k (snd (fst x))) all_proj)
    (map (fun it => (it, mo_args it, en_exp (mo_entry it))) [mo_foo; mo_bar; mo_baz]) =
  [I "Foo"; I "Bar"; I "BarProj"; I "Baz"].
Proof. vm_compute. reflexivity. Qed.
