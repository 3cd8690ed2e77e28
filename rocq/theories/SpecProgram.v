(** Vocabulary for C71: a program with any number of items that have
    [#[pin_project]], in any modules.  ModelTraits.v looks at one item and takes
    everything else in the program as given; here all items are expanded. *)
From Coq Require Import String List Bool.
From Verif Require Import Base Syntax ModelArgs ModelUtils ModelDerive ModelMeaning ModelTraits
  SpecArgs SpecDerive SpecLifetime SpecExpand SpecRun SpecMeaning SpecTraits.
Import ListNotations.
Open Scope string_scope.
Open Scope list_scope.

(** An item: its place, what the user wrote, what the derive printed, the
    definition, and the definitions inside its [const _]. *)
Record entry (U : univ) : Type := mkEntry {
  en_outer : env (D U) (LT U); en_item : item; en_exp : expansion; en_def : D U; en_gen : string -> D U }.
Arguments mkEntry {U}. Arguments en_outer {U}. Arguments en_item {U}. Arguments en_exp {U}.
Arguments en_def {U}. Arguments en_gen {U}.

Record program : Type := mkProgram {
  pr_univ : univ;
  pr_items : list (entry pr_univ);
  pr_lib : string -> D pr_univ;
  pr_impls : list (env (D pr_univ) (LT pr_univ) * impl);   (* written by users *)
  pr_other : D pr_univ -> D pr_univ -> Prop;
  pr_outlives : D pr_univ -> LT pr_univ -> Prop;
  pr_lt_outlives : LT pr_univ -> LT pr_univ -> Prop
}.

Section Program.
  Variable p : program.
  Notation U := (pr_univ p).
  Notation T := (D U).
  Notation E_ := (env T (LT U)).

  (** The program with the expansion of one item only. *)
  Definition only (x : entry U) : setting :=
    mkSetting U (en_outer x) (en_item x) (en_exp x) (en_def x) (en_gen x) (pr_lib p) (pr_impls p) (pr_other p)
      (pr_outlives p) (pr_lt_outlives p).
  (** And without any. *)
  Definition bare_program : setting :=
    only (mkEntry (mkEnv (fun x => HDef (pr_lib p x)) (fun _ => u_elided U)) ItOther (mkExpansion [] []) (u_never U) (fun _ => u_never U)).

  Definition expanded (x : entry U) : list (E_ * impl) := generated_impls (only x).
  (** All impls: of the users, of all expansions, of the support crate. *)
  Definition program_impls : list (E_ * impl) :=
    pr_impls p ++ flat_map expanded (pr_items p) ++ lib_impls bare_program.
  Definition entry_defs (x : entry U) : list (E_ * T * generics * list field) :=
    item_def (only x) ++ structs_of (only x) (inner_env (only x)) (en_gen x) (scoped (en_exp x)).
  Definition program_defs : list (E_ * T * generics * list field) :=
    flat_map entry_defs (pr_items p) ++ structs_of bare_program (lib_env bare_program) (pr_lib p) lib_items.

  (** Selection as in ModelTraits.v, with all these impls and definitions. *)
  Definition unpin_by_fields (holds : T -> T -> Prop) (defs : list (E_ * T * generics * list field)) (t : T) : Prop :=
    exists E c g fs s l, In (E, c, g, fs) defs /\ t = u_inst U c (param_args (g_params g) s l) /\
      ~ (exists E im s l a, In (E, im) program_impls /\ matches bare_program E im s l (unpin bare_program) (u_inst U c a)) /\
      forall f, In f fs -> holds (unpin bare_program) (den_ty (with_params (g_params g) s l (with_self t E)) (f_ty f)).
  Definition program_selected (holds : T -> T -> Prop) (tr t : T) : Prop :=
    (exists x, In x program_impls /\ applies bare_program holds x tr t) \/
    (tr = unpin bare_program /\ unpin_by_fields holds program_defs t) \/
    (tr = unpin bare_program /\ exists d, t = u_inst U (pr_lib p "PhantomData") [DTy d] /\ holds (unpin bare_program) d) \/
    (tr = unpin bare_program /\ exists l m d, t = u_ref U l m d) \/
    pr_other p tr t.
  Definition program_coherent (fails : E_ -> wpred -> Prop) : Prop :=
    forall i j x y, i <> j -> nth_error program_impls i = Some x -> nth_error program_impls j = Some y ->
    ~ conflict bare_program fails x y.

  (** What is defined in the program: the [k]-th item, what is inside the
      [const _] of the [k]-th item, what the support crate offers. *)
  Inductive defined : Type := DfItem (k : nat) | DfGen (k : nat) (x : string) | DfLib (x : string).
  Definition defines (e : defined) (d : T) : Prop :=
    match e with
    | DfItem k => exists x, nth_error (pr_items p) k = Some x /\ d = en_def x
    | DfGen k y => exists x, nth_error (pr_items p) k = Some x /\ d = en_gen x y
    | DfLib y => In y lib_names /\ d = pr_lib p y
    end.

  (** The same laws as [rust] in SpecTraits.v. *)
  Record program_rust : Prop := {
    pu_derive : forall x, In x (pr_items p) -> parse_derive (en_item x) = Ok (en_exp x);
    pu_name : forall x, In x (pr_items p) -> names (en_outer x) (item_name (only x)) = HDef (en_def x);
    pu_ordered : forall x, In x (pr_items p) -> ordered (item_params (only x));
    pu_nominal : forall e e' d d' a a', defines e d -> defines e' d' -> u_inst U d a = u_inst U d' a' -> e = e' /\ a = a';
    pu_ref : forall e d l m d' a, defines e d -> u_ref U l m d' <> u_inst U d a;
    pu_private : forall x a, u_sel U (u_sel U (crate_ bare_program) "__private" []) x a = u_inst U (pr_lib p x) a;
    pu_unsafe_unpin : u_sel U (crate_ bare_program) "UnsafeUnpin" [] = unsafe_unpin bare_program;
    pu_alias : forall d, u_inst U (pr_lib p "PinnedFieldsOf") [DTy d] = den_ty (t_is bare_program d) pinned_fields_of_alias;
    pu_actual : forall d,
      u_proj U (u_inst U (pr_lib p "PinnedFieldsOfHelperStruct") [DTy d])
        (u_inst U (pr_lib p "PinnedFieldsOfHelperTrait") []) "Actual" [] = den_ty (t_is bare_program d) actual;
    pu_other : forall tr e d a, In tr (the_traits bare_program) -> defines e d -> ~ pr_other p tr (u_inst U d a);
    pu_orphan : forall E im s l tr e d a, In (E, im) (pr_impls p) -> In tr (the_traits bare_program) -> defines e d ->
      matches bare_program E im s l tr (u_inst U d a) -> exists k, e = DfItem k;
    pu_sized_item : forall x s l, In x (pr_items p) ->
      (has_size (only x) (item_at (only x) s l) <-> sized_at (only x) s l);
    pu_sized_tuple : forall l, (forall d, In d l -> has_size bare_program d) -> has_size bare_program (u_tuple U l);
    pu_sized_phantom : forall d, has_size bare_program (u_inst U (pr_lib p "PhantomData") [DTy d])
  }.

  (** Nothing the users wrote is captured (C33, C43 and F1 are about that). *)
  Definition program_names : Prop :=
    forall x, In x (pr_items p) -> legal (only x) /\ uncaptured (only x) /\ exists a, options (attrs_of (en_item x)) a.

  (** A program that compiles. *)
  Record program_compiles (holds : T -> T -> Prop) (fails : E_ -> wpred -> Prop) : Prop := {
    pc_rust : program_rust;
    pc_solution : forall tr t, holds tr t <-> program_selected holds tr t;
    pc_headers : forall x, In x (pr_items p) -> headers_ok (only x) holds;
    pc_refuter : refuter bare_program holds fails;
    pc_coherent : program_coherent fails;
    pc_bodies : forall x y, In x (pr_items p) -> In y (expanded x) -> typechecks (only x) holds y
  }.

  (** The program as the item [x] sees it: everything that comes from the other
      items [ys] is just there. *)
  Definition view (holds : T -> T -> Prop) (x : entry U) (ys : list (entry U)) : setting :=
    mkSetting U (en_outer x) (en_item x) (en_exp x) (en_def x) (en_gen x) (pr_lib p)
      (pr_impls p ++ flat_map expanded ys)
      (fun tr t => pr_other p tr t \/ (tr = unpin bare_program /\ unpin_by_fields holds (flat_map entry_defs ys) t))
      (pr_outlives p) (pr_lt_outlives p).
End Program.
