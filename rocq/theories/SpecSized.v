(** Which types must have a size that is known at compile time ([Sized]): Rust's
    rules, for any reading of which of the types that the user wrote have one.
    Types are compared as written, with [Self] spelled out (C38 says what that
    means); names are taken to be resolved as in C43 and C52. *)
From Coq Require Import String List Bool.
From Verif Require Import Base Syntax ModelArgs ModelUtils SpecArgs SpecDerive SpecExpand SpecRun ModelTraits SpecTraits.
Import ListNotations.
Open Scope string_scope.
Open Scope list_scope.

(** A type of the support module, [::pin_project::__private::s<l>] outside and
    [_pin_project::__private::s<l>] inside of the [const] block. *)
Inductive lib_ty (s : string) (l : list garg) : ty -> Prop :=
| LT_outside : lib_ty s l (TyPath None (Path true [seg1 "pin_project"; seg1 "__private"; Seg (I s) (GAngle false l)]))
| LT_inside : lib_ty s l (TyPath None (Path false [seg1 "_pin_project"; seg1 "__private"; Seg (I s) (GAngle false l)])).

(** The type of a field of the item, as the generated code spells it. *)
Definition spelled_ty (it : item) (f : field) : ty := replace_ty (own_type (name_of it) (generics_of it)) (f_ty f).
(** The type [i<'a, T, N>] in the scope of its own parameters [l]. *)
Definition declared_ty (i : ident) (l : list gparam) : ty := applied i (map as_arg l).

(** [sz t]: the type [t] is [Sized], in a program where [it] has been expanded to [e]. *)
Record size_rules (sz : ty -> Prop) (it : item) (e : expansion) : Prop := {
  sr_ref : forall lt m t, sz (TyRef lt m t);
  sr_ptr : forall m t, sz (TyPtr m t);
  sr_paren : forall t, sz (TyParen t) <-> sz t;
  sr_tuple : forall l, (forall t, In t l -> sz t) -> sz (TyTuple l);
  (* struct Pin<P> { pointer: P };  struct PhantomData<T: ?Sized>;
     struct AlwaysUnpin<'a, T>(PhantomData<&'a ()>, PhantomData<T>)  (/repo/src/lib.rs:303) *)
  sr_pin : forall u t, lib_ty "Pin" [ATy u] t -> (sz t <-> sz u);
  sr_phantom : forall u t, lib_ty "PhantomData" [ATy u] t -> sz t;
  sr_always : forall lt u t, lib_ty "AlwaysUnpin" [ALt lt; ATy u] t -> sz t;
  (* a struct has a size if its fields have one, an enum always has *)
  sr_item : sz (declared_ty (name_of it) (params_of it)) <->
    forall fs f, In fs (fields_of it) -> In f (fields_list fs) -> sz (spelled_ty it f);
  sr_struct : forall v i g fs, In (OStruct v i g fs) (all_items e) ->
    (sz (declared_ty i (g_params g)) <-> forall f, In f (fields_list fs) -> sz (f_ty f));
  sr_enum : forall v i g vs, In (OEnum v i g vs) (all_items e) -> sz (declared_ty i (g_params g))
}.

(** The parameters that a type of the library was declared with (/repo/src/lib.rs:281-305,
    [ModelTraits.lib_items]); the bounds of the alias [PinnedFieldsOf<T>] are
    those of the struct that it stands for. *)
Inductive lib_params : string -> list gparam -> Prop :=
| LP_struct v s g fs : In (OStruct v (I s) g fs) lib_items -> lib_params s (g_params g)
| LP_alias l : lib_params "PinnedFieldsOfHelperStruct" l -> lib_params "PinnedFieldsOf" l.
(** [needs t u]: the type [t] can only be written if its argument [u] is [Sized].
    Type parameters ask for that unless they say [?Sized]. *)
Inductive needs : ty -> ty -> Prop :=
| N_pin u t : lib_ty "Pin" [ATy u] t -> needs t u
| N_lib s ps i bs d l u t : lib_params s ps -> length l = length ps -> In (PTy i bs d, ATy u) (combine ps l) ->
    existsb is_maybe bs = false -> lib_ty s l t -> needs t u.
Definition args_sized (sz : ty -> Prop) (t : ty) : Prop := forall u, needs t u -> sz u.

(** The types of what is passed to and returned from a method. *)
Definition passed (m : method) : list ty :=
  match m_self m with RecvTyped t => [t] | RecvRefMut => [] end ++ map snd (m_params m) ++
  match m_ret m with Some t => [t] | None => [] end.
(** [Self] in an impl for [self]. *)
Definition in_impl (self t : ty) : ty :=
  match t with
  | TyPath None (Path false [Seg i GNone]) => if ident_is i "Self" then self else t
  | _ => t
  end.

(** The generated item has sizes wherever Rust wants them: all fields of a struct
    but the last (E0277), all fields of an enum, all parameters and results. *)
Definition well_sized (sz : ty -> Prop) (o : oitem) : Prop :=
  match o with
  | OStruct _ _ _ fs =>
    (forall f, In f (fields_list fs) -> args_sized sz (f_ty f)) /\
    (forall l x, fields_list fs = l ++ [x] -> forall f, In f l -> sz (f_ty f))
  | OEnum _ _ _ vs =>
    forall v f, In v vs -> In f (fields_list (v_fields v)) -> args_sized sz (f_ty f) /\ sz (f_ty f)
  | OImpl im =>
    forall m t, In m (i_methods im) -> In t (passed m) -> args_sized sz t /\ sz (in_impl (i_self im) t)
  | OTrait _ | OAssert _ _ _ | OExternCrate _ _ => True   (* [OAssert] takes a reference *)
  end.
Definition all_sized (sz : ty -> Prop) (e : expansion) : Prop := forall o, In o (all_items e) -> well_sized sz o.

(** The types of the library inside of a type, and the type itself. *)
Inductive inside : ty -> ty -> Prop :=
| IN_self t : inside t t
| IN_arg s l t u v : lib_ty s l t -> In (ATy u) l -> inside u v -> inside t v.
