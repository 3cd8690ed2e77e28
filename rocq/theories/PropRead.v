(** C55: the tokens that stand for [Self] in the input of a macro are read as
    the type of the impl.  A [Model] function prints the type; the reader, in
    SpecRead.v, is the grammar of Rust. *)
From Coq Require Import String Ascii List Bool Arith.
From Verif Require Import Base Syntax ModelUtils SpecParse SpecTokens SpecRead ProofsTokens ProofsRead.
Import ListNotations.
Open Scope string_scope.
Open Scope list_scope.

(** Every type that can be written is read back from its tokens, before
    anything that does not go on with a type. *)
Theorem C55_reads_back : forall t rest, source_ty t = true -> parses_ty t = true -> continues rest = false ->
  gives_ty (print_ty t ++ rest) t rest.
Proof. exact gives_back. Qed.
Print Assumptions C55_reads_back.
(** [<Vec<(A, &'a mut dyn (for<'b> Fn(&'b u8) -> [u8; N::<3>(x)]))> as ::a::Tr<'a, Item = m!()>>::Out] *)
Example C55_reads_back_example :
  let t := TyPath (Some (TyPath None (Path false [Seg (I "Vec") (GAngle false [ATy (TyTuple
             [TyPath None (Path false [Seg (I "A") GNone]);
              TyRef (Some "'a") true (TyDyn [BTrait false ["'b"] (Path false [Seg (I "Fn") (GParen
                [TyRef (Some "'b") false (TyPath None (Path false [Seg (I "u8") GNone]))]
                (Some (TyArray (TyPath None (Path false [Seg (I "u8") GNone]))
                  (ECall (EPath None (Path false [Seg (I "N") (GAngle true [AConst (ELit "3")])]))
                     [EPath None (Path false [Seg (I "x") GNone])]))))])])])])]), 2))
             (Path true [Seg (I "a") GNone;
                         Seg (I "Tr") (GAngle false [ALt "'a"; AAssoc (I "Item") (TyMacro [I "m"] [])]);
                         Seg (I "Out") GNone]) in
  source_ty t = true /\ parses_ty t = true /\ continues [TPunct "," false; TLit "1"] = false /\
  read_ty 20 true (print_ty t ++ [TPunct "," false; TLit "1"]) = Some (t, [TPunct "," false; TLit "1"]).
Proof. vm_compute. auto. Qed.

(** Two types are never written alike. *)
Theorem C55_unambiguous : forall t t', source_ty t = true -> parses_ty t = true -> source_ty t' = true -> parses_ty t' = true ->
  print_ty t = print_ty t' -> t = t'.
Proof. exact print_inj. Qed.
Print Assumptions C55_unambiguous.

(** [m!(Self, ..)] where [m] takes a type. *)
Theorem C55_self : forall t r,
  source_ty t = true -> parses_ty t = true -> ~ occurs (I "fn") r -> continues r = false -> begins "Self" r = false ->
  gives_ty (visit_macro (print_ty t) (TIdent (I "Self") :: r)) t (visit_macro (print_ty t) r).
Proof. exact c55_self. Qed.
Print Assumptions C55_self.
(** [m!(Self::x, ..)]. *)
Theorem C55_associated : forall t x j r,
  source_ty t = true -> parses_ty t = true -> path_word x = true -> x <> I "self" -> x <> I "Self" ->
  ~ occurs (I "fn") r -> continues r = false -> begins "Self" r = false ->
  gives_ty (visit_macro (print_ty t) (TIdent (I "Self") :: TPunct ":" true :: TPunct ":" j :: TIdent x :: r))
    (TyPath (Some (t, 0)) (Path true [Seg x GNone])) (visit_macro (print_ty t) r).
Proof. exact c55_path. Qed.
Print Assumptions C55_associated.
(** [Self::Item, Self] in [impl .. for Foo<'a, T>]: the macro reads
    [<Foo<'a, T>>::Item], a comma and [Foo<'a, T>]. *)
Example C55_self_example :
  let t := TyPath None (Path false [Seg (I "Foo") (GAngle false [ALt "'a"; ATy (TyPath None (Path false [Seg (I "T") GNone]))])]) in
  let r := [TPunct "," false; TIdent (I "Self")] in
  source_ty t = true /\ parses_ty t = true /\ ~ occurs (I "fn") r /\ continues r = false /\ begins "Self" r = false /\
  let out := visit_macro (print_ty t) (TIdent (I "Self") :: TPunct ":" true :: TPunct ":" false :: TIdent (I "Item") :: r) in
  read_ty 9 true out = Some (TyPath (Some (t, 0)) (Path true [Seg (I "Item") GNone]), TPunct "," false :: print_ty t) /\
  read_ty 9 true (print_ty t) = Some (t, []).
Proof. cbn zeta. rewrite <- contains_fn_iff. vm_compute. repeat split; congruence. Qed.

(** Where the macro takes an expression: [Self] and [Self(..)], for a type
    without generic arguments. *)
Theorem C55_value : forall p r,
  source_path p = true -> parses_path p = true -> value_path None p = true ->
  ~ occurs (I "fn") r -> continues r = false -> begins "Self" r = false ->
  gives_expr (visit_macro (print_ty (TyPath None p)) (TIdent (I "Self") :: r)) (EPath None p)
    (visit_macro (print_ty (TyPath None p)) r).
Proof. exact c55_value. Qed.
Print Assumptions C55_value.
Theorem C55_constructor : forall p args l b r,
  source_path p = true -> parses_path p = true -> value_path None p = true ->
  ~ occurs (I "fn") args -> ~ occurs (I "fn") r -> continues r = false -> begins "Self" r = false ->
  (exists n, forall m, n <= m -> list_in (read_expr m) m (visit_macro (print_ty (TyPath None p)) args) = Some (l, b)) ->
  gives_expr (visit_macro (print_ty (TyPath None p)) (TIdent (I "Self") :: TGroup Paren args :: r))
    (ECall (EPath None p) l) (visit_macro (print_ty (TyPath None p)) r).
Proof. exact c55_call. Qed.
Print Assumptions C55_constructor.
(** [Self(Self::N(1))] for [a::Foo]. *)
Example C55_constructor_example :
  let p := Path false [Seg (I "a") GNone; Seg (I "Foo") GNone] in
  let args := [TIdent (I "Self"); TPunct ":" true; TPunct ":" false; TIdent (I "N"); TGroup Paren [TLit "1"]] in
  source_path p = true /\ parses_path p = true /\ value_path None p = true /\ ~ occurs (I "fn") args /\
  exists l, read_expr 9 (visit_macro (print_ty (TyPath None p)) [TIdent (I "Self"); TGroup Paren args]) = Some (ECall (EPath None p) l, []) /\
    l = [ECall (EPath (Some (TyPath None p, 0)) (Path true [Seg (I "N") GNone])) [ELit "1"]].
Proof.
  cbn zeta. rewrite <- contains_fn_iff. vm_compute. repeat split; try congruence. eexists. split; reflexivity.
Qed.

(** With generic arguments [Self(..)] becomes [Foo<T>(..)], which is not an
    expression: this would have to be [Foo::<T>(..)]. *)
Theorem C55_generic_constructor_refuted : exists p ts e,
  source_path p = true /\ parses_path p = true /\ ~ occurs (I "fn") ts /\
  gives_expr ts (ECall (EPath None (Path false [Seg (I "Self") GNone])) e) [] /\
  forall n x, read_expr n (visit_macro (print_ty (TyPath None p)) ts) <> Some (x, []).
Proof. exact c55_generic_constructor. Qed.
Print Assumptions C55_generic_constructor_refuted.
