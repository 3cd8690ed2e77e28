(** Default lifetimes of trait objects.  A type [dyn Tr] without a lifetime
    bound has one all the same: the lifetime of the closest reference around it,
    or what the definition of the type that takes it as argument says, or
    ['static].  This is a rule of Rust ("Lifetime elision", the Rust reference),
    not code of the repository; it matters because derive.rs:571-648
    ([visit_fields]) writes field types into references. *)
From Coq Require Import String List Bool.
From Verif Require Import Base Syntax.
Import ListNotations.
Open Scope string_scope.
Open Scope list_scope.

Definition is_lt_bound (b : bound) : bool := match b with BLt _ => true | BTrait _ _ _ => false end.

(** The lifetime written [''_'] or not at all, and the one that the definition of
    a generic type determines for its argument.  The universe of types says what
    these stand for, as for all other lifetimes. *)
Definition lt_elided : string := "'_".
Definition lt_of_argument : string := "".
Definition lt_static : string := "'static".

(** [t] with the bound spelled out, where [d] is the default at this place.
    Simplified: the default goes through pointers, tuples, slices, arrays and
    function types (the theorems do not depend on it); array lengths
    and other expressions are left alone. *)
Fixpoint objects_ty (d : string) (t : ty) : ty :=
  match t with
  | TyPath q p => TyPath (match q with Some (t', n) => Some (objects_ty d t', n) | None => None end) (objects_path d p)
  | TyRef lt m t' => TyRef lt m (objects_ty (match lt with Some x => x | None => lt_elided end) t')
  | TyPtr m t' => TyPtr m (objects_ty d t')
  | TyTuple l => TyTuple (map (objects_ty d) l)
  | TySlice t' => TySlice (objects_ty d t')
  | TyArray t' e => TyArray (objects_ty d t') e
  | TyFn lts l o => TyFn lts (map (objects_ty d) l) (match o with Some t' => Some (objects_ty d t') | None => None end)
  | TyDyn bs => TyDyn (map (objects_bound d) bs ++ (if existsb is_lt_bound bs then [] else [BLt d]))
  | TyParen t' => TyParen (objects_ty d t')
  | TyNever => TyNever
  | TyMacro m ts => TyMacro m ts
  end
with objects_path (d : string) (p : path) : path :=
  match p with Path lead segs => Path lead (map (objects_seg d) segs) end
with objects_seg (d : string) (s : seg) : seg :=
  match s with Seg i a => Seg i (objects_gargs d a) end
with objects_gargs (d : string) (a : gargs) : gargs :=
  match a with
  | GNone => GNone
  | GAngle b l => GAngle b (map objects_garg l)
  | GParen l o => GParen (map (objects_ty d) l) (match o with Some t' => Some (objects_ty d t') | None => None end)
  end
with objects_garg (a : garg) : garg :=
  match a with
  | ALt lt => ALt lt
  | ATy t => ATy (objects_ty lt_of_argument t)
  | AConst e => AConst e
  | AAssoc i t => AAssoc i (objects_ty lt_of_argument t)
  end
with objects_bound (d : string) (b : bound) : bound :=
  match b with
  | BLt lt => BLt lt
  | BTrait m lts p => BTrait m lts (objects_path d p)
  end.

(** A type as it stands in a field: the default is ['static]. *)
Definition field_type (t : ty) : ty := objects_ty lt_static t.
