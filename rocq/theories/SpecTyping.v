(** When a generated method is well typed, and when a generated impl says what its
    trait asks for: Rust's rules for the forms of code that the macro writes
    ([Syntax.body]).  Only what makes code well typed is stated, so what these rules
    accept rustc accepts; they are no full account of Rust's typing.  Names are
    taken to be resolved as in C42 and C52, and sizes are C56's subject. *)
From Coq Require Import String List Bool Permutation.
From Verif Require Import Base Syntax ModelArgs ModelUtils SpecArgs SpecDerive SpecExpand SpecRun SpecTraits SpecSized.
Import ListNotations.
Open Scope string_scope.
Open Scope list_scope.

(** ** Types *)

(** Two ways to write the same type. *)
Inductive same_ty : ty -> ty -> Prop :=
| ST_refl t : same_ty t t
| ST_sym t u : same_ty t u -> same_ty u t
| ST_trans t u v : same_ty t u -> same_ty u v -> same_ty t v
| ST_paren t : same_ty (TyParen t) t
| ST_ref lt m t u : same_ty t u -> same_ty (TyRef lt m t) (TyRef lt m u)
| ST_ptr m t u : same_ty t u -> same_ty (TyPtr m t) (TyPtr m u)
| ST_lib s t u a b : lib_ty s [ATy t] a -> lib_ty s [ATy u] b -> same_ty t u -> same_ty a b.

(** Where a type is expected, [&mut T] also serves as [*mut T] and as [*const T]. *)
Inductive coerces : ty -> ty -> Prop :=
| CO_same t u : same_ty t u -> coerces t u
| CO_ptr lt m t u v : same_ty v (TyRef lt true t) -> same_ty t u -> coerces v (TyPtr m u).

Definition unit_ty : ty := TyTuple [].

(** ** Variables

    The variables in scope, the last one first; [None]: its value was moved away. *)
Definition scope : Type := list (string * option ty).
(** [uses x t G G']: the variable [x] has the type [t], and using it by value
    leaves [G'].  Raw pointers are [Copy]; everything else is taken to move. *)
Inductive uses (x : ident) (t : ty) : scope -> scope -> Prop :=
| U_move G : uses x t ((name x, Some t) :: G) ((name x, None) :: G)
| U_copy m u G : t = TyPtr m u -> uses x t ((name x, Some t) :: G) ((name x, Some t) :: G)
| U_outer y o G G' : y <> name x -> uses x t G G' -> uses x t ((y, o) :: G) ((y, o) :: G').
Definition bind_all (bs : list (string * ty)) (G : scope) : scope :=
  map (fun b => (fst b, Some (snd b))) bs ++ G.
(** What is left of [G] at the end of a block that began with [G] and ended with [G']. *)
Definition leave (G G' : scope) : scope := skipn (length G' - length G) G'.

(** ** The functions of the support module

    core: [unsafe fn Pin::<P>::new_unchecked(pointer: P) -> Pin<P>] where [P: Deref],
    [unsafe fn ptr::read<T>(src: *const T) -> T]; /repo/src/lib.rs:307-349 for the
    guards, 222-225 for [PinnedDrop].  [pd t]: the type [t] implements [PinnedDrop]. *)
Definition support_fn (l : list string) : list ident := map I ("_pin_project" :: "__private" :: l).
Inductive fn_type (pd : ty -> Prop) : list ident -> list ty -> ty -> Prop :=
| F_pin lt m t p : lib_ty "Pin" [ATy (TyRef lt m t)] p ->
    fn_type pd (support_fn ["Pin"; "new_unchecked"]) [TyRef lt m t] p
| F_read t : fn_type pd (support_fn ["ptr"; "read"]) [TyPtr false t] t
| F_drop_guard t g : lib_ty "UnsafeDropInPlaceGuard" [ATy t] g ->
    fn_type pd (support_fn ["UnsafeDropInPlaceGuard"; "new"]) [TyPtr true t] g
| F_overwrite_guard t g : lib_ty "UnsafeOverwriteGuard" [ATy t] g ->
    fn_type pd (support_fn ["UnsafeOverwriteGuard"; "new"]) [TyPtr true t; t] g
| F_pinned_drop lt t p : lib_ty "Pin" [ATy (TyRef lt true t)] p -> pd t ->
    fn_type pd (support_fn ["PinnedDrop"; "drop"]) [p] unit_ty.
(** [Pin::get_unchecked_mut(self) -> &'a mut T] and [Pin::get_ref(self) -> &'a T]. *)
Inductive method_type : string -> ty -> ty -> Prop :=
| M_mut lt t p : lib_ty "Pin" [ATy (TyRef lt true t)] p -> method_type "get_unchecked_mut" p (TyRef lt true t)
| M_ref lt t p : lib_ty "Pin" [ATy (TyRef lt false t)] p -> method_type "get_ref" p (TyRef lt false t).

(** ** Expressions

    [it] is the item that the derive was written on, [e] its expansion. *)
Section Typing.
  Variable pd : ty -> Prop.
  Variable it : item.
  Variable e : expansion.

  (** Arguments are coerced to the types of the parameters. *)
  Inductive args_typed : list ident -> list ty -> scope -> scope -> Prop :=
  | AT_nil G : args_typed [] [] G G
  | AT_cons x xs t u us G G1 G2 : uses x t G G1 -> coerces t u -> args_typed xs us G1 G2 ->
      args_typed (x :: xs) (u :: us) G G2.

  Inductive atom_typed : atom -> ty -> scope -> scope -> Prop :=
  | A_var x t G G' : uses x t G G' -> atom_typed (AVar x) t G G'
  | A_method x m t u G G' : uses x t G G' -> method_type (name m) t u -> atom_typed (AMethod x m) u G G'
    (* [&mut *x] for a raw pointer: the lifetime is free *)
  | A_ref_mut x t lt G : uses x (TyPtr true t) G G -> atom_typed (ARefMutDeref x) (TyRef lt true t) G G
  | A_call f xs ts t G G' : fn_type pd f ts t -> args_typed xs ts G G' -> atom_typed (ACall f xs) t G G'
  | A_phantom t p G : lib_ty "PhantomData" [ATy t] p -> atom_typed (APath (support_fn ["PhantomData"])) p G G.

  (** The constructors of the generated types, with the type that they build: the
      type's own parameters are in scope in the impl under the same names. *)
  Inductive constructs : list ident -> fields -> ty -> Prop :=
  | K_struct v i g fs : In (OStruct v i g fs) (all_items e) -> constructs [i] fs (declared_ty i (g_params g))
  | K_variant v i g vs w : In (OEnum v i g vs) (all_items e) -> In w vs ->
      constructs [i; v_ident w] (v_fields w) (declared_ty i (g_params g)).

  (** Named fields can be listed in any order, others only in theirs. *)
  Definition listing (fs : fields) (d : option delim) (l : list field) : Prop :=
    match fs with
    | FNamed k => d = Some Brace /\ Permutation k l
    | FUnnamed k => d = Some Paren /\ l = k
    | FUnit => d = None /\ l = []
    end.
  (** The field that an entry of a constructor is for: [f: a], or [b] for [b: b]
      in braces; none in parentheses. *)
  Definition entry_field (d : option delim) (x : option ident * atom) : option string :=
    match d, x with
    | Some Brace, (None, AVar b) => Some (name b)
    | _, (o, _) => option_map name o
    end.
  Inductive entries_typed (d : option delim) : list (option ident * atom) -> list field -> scope -> scope -> Prop :=
  | ET_nil G : entries_typed d [] [] G G
  | ET_cons x xs f fs t G G1 G2 :
      entry_field d x = option_map name (f_ident f) ->
      atom_typed (snd x) t G G1 -> coerces t (f_ty f) ->
      entries_typed d xs fs G1 G2 ->
      entries_typed d (x :: xs) (f :: fs) G G2.

  Inductive rhs_typed : rhs -> ty -> scope -> scope -> Prop :=
  | R_atom a t G G' : atom_typed a t G G' -> rhs_typed (RAtom a) t G G'
  | R_lit p d xs fs l t G G' : constructs p fs t -> listing fs d l -> entries_typed d xs l G G' ->
      rhs_typed (RLit p d xs) t G G'.

  (** ** Patterns

      [Self { .. }], [Self::V(..)], .. against a reference to [Self]: every
      variable becomes a reference to its field. *)
  Inductive self_pattern : list ident -> fields -> Prop :=
  | SP_struct s : it = ItStruct s -> self_pattern [I "Self"] (s_fields s)
  | SP_variant n v : it = ItEnum n -> In v (e_variants n) -> self_pattern [I "Self"; v_ident v] (v_fields v).
  (** In braces the variable is also the name of the field. *)
  Definition binds (lt : option string) (m : bool) (d : option delim) (x : ident) (f : field) (b : string * ty) : Prop :=
    (d = Some Brace -> f_ident f = Some x) /\ b = (name x, TyRef lt m (spelled_ty it f)).
  Inductive pat_typed : pat -> ty -> list (string * ty) -> Prop :=
  | P_var x t : pat_typed (PBind x) t [(name x, t)]
  | P_lit p d xs lt m fs l bs : self_pattern p fs -> listing fs d l ->
      Forall2 (fun xf b => binds lt m d (fst xf) (snd xf) b) (combine xs l) bs -> length xs = length l ->
      NoDup (map name xs) ->                                   (* E0415, E0416 *)
      pat_typed (PLit p d xs) (TyRef lt m ty_self) bs.
  (** Every value matches (E0005). *)
  Definition irrefutable (p : pat) : Prop :=
    match p with PBind _ => True | PLit q _ _ => q = [I "Self"] end.

  (** ** Statements and bodies *)
  Inductive stmt_typed : stmt -> scope -> scope -> Prop :=
  | S_let p o r t u bs G G' : rhs_typed r t G G' ->
      match o with Some v => coerces t v /\ u = v | None => u = t end ->
      irrefutable p -> pat_typed p u bs ->
      stmt_typed (SLet p o r) G (bind_all bs G')
  | S_expr a t G G' : atom_typed a t G G' -> stmt_typed (SExpr a) G G'
  | S_block ss G G' : stmts_typed ss G G' -> stmt_typed (SBlock ss) G (leave G G')
  with stmts_typed : list stmt -> scope -> scope -> Prop :=
  | SS_nil G : stmts_typed [] G G
  | SS_cons s ss G G1 G2 : stmt_typed s G G1 -> stmts_typed ss G1 G2 -> stmts_typed (s :: ss) G G2.

  (** A match has an arm for every variant (E0004), and all arms give the same type. *)
  Definition arm_covers (v : variant) (x : arm) : Prop :=
    exists d xs, arm_pat x = PLit [I "Self"; v_ident v] d xs.
  Inductive body_typed : body -> ty -> scope -> Prop :=
  | B_unit ss G G' : stmts_typed ss G G' -> body_typed (BTail ss None) unit_ty G
  | B_tail ss r t u G G' G2 : stmts_typed ss G G' -> rhs_typed r t G' G2 -> coerces t u -> body_typed (BTail ss (Some r)) u G
  | B_match ss a arms n t u G G1 G2 :
      stmts_typed ss G G1 -> atom_typed a t G1 G2 ->
      it = ItEnum n -> (forall v, In v (e_variants n) -> exists x, In x arms /\ arm_covers v x) ->
      (forall x, In x arms -> exists bs ut G3 G4, pat_typed (arm_pat x) t bs /\
         stmts_typed (arm_stmts x) (bind_all bs G2) G3 /\ rhs_typed (arm_tail x) ut G3 G4 /\ coerces ut u) ->
      body_typed (BMatch ss a arms) u G.

  (** ** Methods, impls and the other items *)
  Definition self_param (r : receiver) : ty :=
    match r with RecvTyped t => t | RecvRefMut => TyRef None true ty_self end.
  Definition method_typed (m : method) : Prop :=
    body_typed (m_body m) (match m_ret m with Some t => t | None => unit_ty end)
      (bind_all (("self", self_param (m_self m)) :: map (fun p => (name (fst p), snd p)) (m_params m)) []).

  (** The traits that are implemented: whether the trait is unsafe, and its
      methods: name, unsafe, receiver; none has other parameters or a result. *)
  Definition tsig : Type := (string * bool * bool)%type.   (* true: [self: Pin<&mut Self>], false: [&mut self] *)
  Inductive trait_decl : path -> bool -> list tsig -> Prop :=
  | T_unpin : trait_decl (support ["__private"; "Unpin"]) false []
  | T_unsafe_unpin : trait_decl (support ["UnsafeUnpin"]) true []
  | T_drop : trait_decl (support ["__private"; "Drop"]) false [("drop", false, false)]
  | T_pinned_drop : trait_decl (support ["__private"; "PinnedDrop"]) false [("drop", true, true)]
  | T_generated i : In (OTrait i) (all_items e) -> trait_decl (Path false [Seg i GNone]) false [].
  Definition method_conforms (s : tsig) (m : method) : Prop :=
    let '(n, u, pinned_self) := s in
    name (m_name m) = n /\ m_unsafe m = u /\ m_lts m = [] /\ m_params m = [] /\ m_ret m = None /\
    m_vis m = VInherited /\                                            (* E0449 *)
    if pinned_self then exists t, m_self m = RecvTyped t /\ lib_ty "Pin" [ATy (TyRef None true ty_self)] t
    else m_self m = RecvRefMut.
  (** [unsafe] as the trait says (E0199, E0200), exactly its methods (E0046,
      E0407), with its signatures (E0050, E0053, E0186). *)
  Definition impl_conforms (im : impl) : Prop :=
    match i_trait im with
    | None => i_unsafe im = false
    | Some p => exists u l, trait_decl p u l /\ i_unsafe im = u /\ Forall2 method_conforms l (i_methods im)
    end.

  (** A field that [this.m] names. *)
  Definition names_field (fs : fields) (m : member) : Prop :=
    match m, fs with
    | MNamed i, FNamed l => exists f, In f l /\ f_ident f = Some i
    | MIndex n, FUnnamed l => n < length l
    | _, _ => False
    end.

  Definition well_typed (o : oitem) : Prop :=
    match o with
    | OImpl im => impl_conforms im /\
        forall m, In m (i_methods im) ->
          i_self im = declared_ty (name_of it) (params_of it) /\ method_typed m
    | OAssert _ t ms =>
        t = declared_ty (name_of it) (params_of it) /\
        exists s, it = ItStruct s /\ forall m, In m ms -> names_field (s_fields s) m
    | OStruct _ _ _ _ | OEnum _ _ _ _ | OTrait _ | OExternCrate _ _ => True
    end.
End Typing.
