(** What the output of the derive should be read as.  The model's items are those
    that are read, but for three ways to write the same thing:
    - a where clause without predicates is no where clause;
    - [x] alone is a variable in an expression and a binding in a pattern, also
      where the template means the path of a unit struct or variant;
    - [p(a, ..)] as a whole right hand side is a tuple struct expression, also
      where the template means the call of a function.
    Rust makes these distinctions later, by looking up names. *)
From Coq Require Import String List Bool.
From Verif Require Import Base Syntax ModelUtils ModelDerive ModelLints SpecRead SpecItems.
Import ListNotations.
Open Scope string_scope.
Open Scope list_scope.

Definition shown_generics (g : generics) : generics :=
  generics_from (g_params g) (match g_where g with Some l => l | None => [] end).

(** ** Bodies *)
Definition canon_atom (a : atom) : atom := match a with APath p => path_atom p | _ => a end.
Definition canon_rhs (r : rhs) : rhs :=
  match r with
  | RAtom (ACall f l) => RLit f (Some Paren) (map (fun x => (None, AVar x)) l)
  | RAtom a => RAtom (canon_atom a)
  | RLit p None _ => RAtom (path_atom p)
  | RLit p (Some d) fs => RLit p (Some d) (map (fun x => (fst x, canon_atom (snd x))) fs)
  end.
Definition canon_pat (p : pat) : pat :=
  match p with
  | PLit [x] None _ => PBind x
  | PLit l None _ => PLit l None []
  | _ => p
  end.
Fixpoint canon_stmt (s : stmt) : stmt :=
  match s with
  | SLet p t r => SLet (canon_pat p) t (canon_rhs r)
  | SExpr a => SExpr (canon_atom a)
  | SBlock l => SBlock (map canon_stmt l)
  end.
Definition canon_body (b : body) : body :=
  match b with
  | BTail ss t => BTail (map canon_stmt ss) (option_map canon_rhs t)
  | BMatch ss a arms =>
    BMatch (map canon_stmt ss) (canon_atom a)
      (map (fun x => mkArm (canon_pat (arm_pat x)) (map canon_stmt (arm_stmts x)) (canon_rhs (arm_tail x))) arms)
  end.

(** ** Attributes and items *)
Definition shown_lints (l : list lint) : option (list (list ident)) := Some (map (map I) l).
Definition shown_attr (g : gattr) : rattr :=
  match g with
  | AAllow l => ([I "allow"], shown_lints l)
  | AForbid l => ([I "forbid"], shown_lints l)
  | ADocHidden => ([I "doc"], Some [[I "hidden"]])
  | AInline => ([I "inline"], None)
  end.
Definition shown_method (as_ : list gattr) (m : method) : rmethod :=
  mkRMethod (map shown_attr as_) (m_vis m) (m_unsafe m) (m_name m) (m_lts m)
    (match m_self m with RecvTyped t => RSelfTyped t | RecvRefMut => RSelfRefMut end ::
     map (fun p => RArg (fst p) (snd p)) (m_params m))
    (m_ret m) (canon_body (m_body m)).
Definition shown_member (m : member) : ident + string :=
  match m with MNamed i => inl i | MIndex n => inr (string_of_nat n) end.
Definition shown (x : oitem * marks) : list rattr * ritem :=
  (map shown_attr (mk_item (snd x)),
   match fst x with
   | OStruct v i g fs => SeenStruct v i (shown_generics g) fs
   | OEnum v i g vs => SeenEnum v i (shown_generics g) vs
   | OImpl im =>
     SeenImpl (i_unsafe im) (shown_generics (i_generics im)) (i_trait im) (i_self im)
       (map (shown_method (mk_method (snd x))) (i_methods im))
   | OTrait i => SeenTrait i
   | OAssert g t ms =>
     SeenFn (I "__assert_not_repr_packed") (shown_generics g) [RArg (I "this") (TyRef None false t)] (map shown_member ms)
   | OExternCrate a b => SeenExtern a b
   end).
Definition shown_output (e : marked_expansion) : routput :=
  mkROutput (map shown (me_exposed e)) (map shown_attr (me_const e)) (map shown (me_scoped e)).
