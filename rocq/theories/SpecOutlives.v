(** Which types outlive a lifetime: Rust's rules (RFC 1214), for any universe of
    types. *)
From Coq Require Import String List Bool.
From Verif Require Import Base Syntax ModelUtils ModelMeaning.
Import ListNotations.
Open Scope string_scope.
Open Scope list_scope.

Section Outlives.
  Variable U : univ.
  Variable out : D U -> LT U -> Prop.    (* [d: 'r]; holds of constants, definitions and modules *)
  Variable lout : LT U -> LT U -> Prop.  (* ['l: 'r] *)

  Definition arg_outlives (a : darg (D U) (LT U)) (r : LT U) : Prop :=
    match a with
    | DLt l => lout l r
    | DTy d => out d r
    | DAssoc _ d => out d r
    | DParen l o => (forall d, In d l -> out d r) /\ (forall d, o = Some d -> out d r)
    end.
  Definition args_outlive (l : list (darg (D U) (LT U))) (r : LT U) : Prop := forall a, In a l -> arg_outlives a r.
  Definition bound_outlives (b : dbound (D U) (LT U)) (r : LT U) : Prop :=
    match b with DBLt l => lout l r | DBTrait _ _ d => out d r end.
  Definition stands_for (h : head (D U)) : D U := match h with HDone d | HDef d => d end.
  (** Everything in scope outlives [r]. *)
  Record scope_outlives (E : env (D U) (LT U)) (r : LT U) : Prop := {
    so_names : forall x, out (stands_for (names E x)) r;
    so_lts : forall x, lout (lts_of E x) r
  }.

  (** A type outlives ['r] when all its components do.  Lifetimes bound inside
      the type do not count. *)
  Record outlives_rules : Prop := {
    or_refl : forall r, lout r r;
    or_bound : forall x r, lout (u_bound U x) r;
    or_elided : forall r, lout (u_elided U) r;
    or_inst : forall d l r, out d r -> args_outlive l r -> out (u_inst U d l) r;
    or_sel : forall d x l r, out d r -> args_outlive l r -> out (u_sel U d x l) r;
    or_abs : forall x l r, args_outlive l r -> out (u_abs U x l) r;
    or_proj : forall d tr x l r, out d r -> out tr r -> args_outlive l r -> out (u_proj U d tr x l) r;
    or_ref : forall l m d r, lout l r -> out d r -> out (u_ref U l m d) r;
    or_ptr : forall m d r, out d r -> out (u_ptr U m d) r;
    or_tuple : forall l r, (forall d, In d l -> out d r) -> out (u_tuple U l) r;
    or_slice : forall d r, out d r -> out (u_slice U d) r;
    or_array : forall d e r, out d r -> out e r -> out (u_array U d e) r;
    or_fn : forall lts l o r, (forall d, In d l -> out d r) -> (forall d, o = Some d -> out d r) -> out (u_fn U lts l o) r;
    or_dyn : forall l r, (forall b, In b l -> bound_outlives b r) -> out (u_dyn U l) r;
    or_never : forall r, out (u_never U) r;
    or_lit : forall s r, out (u_lit U s) r;
    or_call : forall d l r, out d r -> (forall e, In e l -> out e r) -> out (u_call U d l) r;
    or_macro : forall E m ts r, scope_outlives E r -> out (u_macro U E m ts) r
  }.
  (** [c] is a type of its own: [c<..>: 'r] says something about all arguments. *)
  Definition nominal (c : D U) : Prop := forall l r, out (u_inst U c l) r -> args_outlive l r.

  (** Outside of items only global things are in scope. *)
  Definition module_level (E : env (D U) (LT U)) : Prop := forall r, scope_outlives E r.

  (** The lifetime predicates of a where clause. *)
  Definition outlives_sat (E : env (D U) (LT U)) (l : list wpred) : Prop :=
    forall t lt, In (WTy [] t [BLt lt]) l -> out (den_ty E t) (lts_of E lt).
End Outlives.
Arguments arg_outlives {U}. Arguments args_outlive {U}. Arguments bound_outlives {U}. Arguments stands_for {U}.
Arguments scope_outlives {U}. Arguments outlives_rules {U}. Arguments nominal {U}. Arguments module_level {U}.
Arguments outlives_sat {U}.

(** [&'lt T] is the type, or the last argument of the path that it is. *)
Inductive has_ref : ty -> string -> ty -> Prop :=
| HR_here lt m t : has_ref (TyRef (Some lt) m t) lt t
| HR_arg lead segs i b lt m t : has_ref (TyPath None (Path lead (segs ++ [Seg i (GAngle b [ATy (TyRef (Some lt) m t)])]))) lt t.
