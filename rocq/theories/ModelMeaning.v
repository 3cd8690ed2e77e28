(** What type expressions mean: Rust's name resolution for types, over an
    arbitrary universe of types.

    This models the compiler, not /repo: the macros splice user-written types
    into new places (/repo/pin-project-internal/src/pin_project/derive.rs:592-629,
    764-830) and replace [Self] in them (/repo/pin-project-internal/src/utils.rs:278-354),
    and what that does to their meaning depends on how Rust reads types.
    A type expression is read compositionally in an environment that says what
    the first name of every path stands for.  Everything else (what the
    entities are, what associated types, modules, macros or constants evaluate
    to) is left open: a universe is any type with any operations.
    Simplification: types, traits, modules, functions and constants share one
    name space. *)
From Coq Require Import String List Bool.
From Verif Require Import Base Syntax.
Import ListNotations.
Open Scope string_scope.
Open Scope list_scope.

(** Generic arguments: a lifetime, a type or constant, [Name = Type], or the
    sugar [(A, ..) -> B]. *)
Inductive darg (D LT : Type) : Type :=
| DLt (l : LT)
| DTy (d : D)
| DAssoc (n : string) (d : D)
| DParen (l : list D) (o : option D).
Arguments DLt {D LT} l.
Arguments DTy {D LT} d.
Arguments DAssoc {D LT} n d.
Arguments DParen {D LT} l o.

(** Bounds of a trait object. *)
Inductive dbound (D LT : Type) : Type :=
| DBLt (l : LT)
| DBTrait (maybe : bool) (lts : list string) (d : D).
Arguments DBLt {D LT} l.
Arguments DBTrait {D LT} maybe lts d.

(** What a name stands for: something finished (a parameter, [Self]) or a
    definition that takes generic arguments. *)
Inductive head (D : Type) : Type :=
| HDone (d : D)
| HDef (d : D).
Arguments HDone {D} d.
Arguments HDef {D} d.

Record env (D LT : Type) : Type := mkEnv { names : string -> head D; lts_of : string -> LT }.
Arguments mkEnv {D LT}.
Arguments names {D LT}.
Arguments lts_of {D LT}.

Record univ : Type := mkUniv {
  D : Type;                                             (* types, traits, modules, constants, .. *)
  LT : Type;                                            (* lifetimes *)
  u_inst : D -> list (darg D LT) -> D;                  (* a definition and its arguments *)
  u_sel : D -> string -> list (darg D LT) -> D;         (* d::name<..> *)
  u_abs : string -> list (darg D LT) -> D;              (* ::name<..> *)
  u_extern : string -> D;                               (* what [extern crate name] finds *)
  u_proj : D -> D -> string -> list (darg D LT) -> D;   (* <d as tr>::name<..> *)
  u_ref : LT -> bool -> D -> D;
  u_ptr : bool -> D -> D;
  u_tuple : list D -> D;
  u_slice : D -> D;
  u_array : D -> D -> D;
  u_fn : list string -> list D -> option D -> D;
  u_dyn : list (dbound D LT) -> D;
  u_never : D;
  u_lit : string -> D;
  u_call : D -> list D -> D;
  u_macro : env D LT -> list ident -> list ttree -> D;  (* a macro sees its tokens and its surroundings *)
  u_elided : LT;                                        (* a lifetime that is not written *)
  u_bound : string -> LT                                (* a lifetime bound by [for<..>] *)
}.

Section Meaning.
  Variable U : univ.
  Notation E_ := (env (D U) (LT U)).
  Notation arg := (darg (D U) (LT U)).

  (** [for<lts>]: the names now mean the bound lifetimes. *)
  Definition bind_lts (lts : list string) (l : string -> LT U) : string -> LT U :=
    fun x => if existsb (String.eqb x) lts then u_bound U x else l x.
  Definition under (lts : list string) (E : E_) : E_ := mkEnv (names E) (bind_lts lts (lts_of E)).

  Definition use_head (h : head (D U)) (a : list arg) : D U :=
    match h, a with
    | HDone d, [] => d
    | HDone d, _ => u_inst U d a
    | HDef d, _ => u_inst U d a
    end.
  (** [d::x<..>::y<..>]. *)
  Fixpoint sels (d : D U) (l : list (string * list arg)) : D U :=
    match l with
    | [] => d
    | (x, a) :: r => sels (u_sel U d x a) r
    end.
  (** A path without qualified self. *)
  Definition path_of (E : E_) (lead : bool) (l : list (string * list arg)) : D U :=
    match l with
    | [] => u_never U
    | (x, a) :: r => sels (if lead then u_abs U x a else use_head (names E x) a) r
    end.
  (** [<d as l0::..>::ln::..] with [n] segments in the trait path, [<d>::l0::..]
      for [n = 0]. *)
  Definition qpath_of (E : E_) (d : D U) (n : nat) (lead : bool) (l : list (string * list arg)) : D U :=
    match n with
    | 0 => sels d l
    | S _ =>
      match skipn n l with
      | [] => u_never U
      | (x, a) :: r => sels (u_proj U d (path_of E lead (firstn n l)) x a) r
      end
    end.

  Fixpoint den_ty (E : E_) (t : ty) : D U :=
    match t with
    | TyPath q (Path lead segs) =>
      match q with
      | None => path_of E lead (map (den_seg E) segs)
      | Some (t', n) => qpath_of E (den_ty E t') n lead (map (den_seg E) segs)
      end
    | TyRef lt m t' =>
      u_ref U (match lt with Some x => lts_of E x | None => u_elided U end) m (den_ty E t')
    | TyPtr m t' => u_ptr U m (den_ty E t')
    | TyTuple l => u_tuple U (map (den_ty E) l)
    | TySlice t' => u_slice U (den_ty E t')
    | TyArray t' e => u_array U (den_ty E t') (den_expr E e)
    | TyFn lts l o =>
      u_fn U lts (map (den_ty (under lts E)) l)
        (match o with Some t' => Some (den_ty (under lts E) t') | None => None end)
    | TyDyn bs => u_dyn U (map (den_bound E) bs)
    | TyParen t' => den_ty E t'
    | TyNever => u_never U
    | TyMacro m ts => u_macro U E m ts
    end
  with den_seg (E : E_) (s : seg) : string * list arg :=
    match s with Seg i a => (name i, den_gargs E a) end
  with den_gargs (E : E_) (a : gargs) : list arg :=
    match a with
    | GNone => []
    | GAngle _ l => map (den_garg E) l
    | GParen l o =>
      [DParen (map (den_ty E) l) (match o with Some t => Some (den_ty E t) | None => None end)]
    end
  with den_garg (E : E_) (a : garg) : arg :=
    match a with
    | ALt lt => DLt (lts_of E lt)
    | ATy t => DTy (den_ty E t)
    | AConst e => DTy (den_expr E e)
    | AAssoc i t => DAssoc (name i) (den_ty E t)
    end
  with den_bound (E : E_) (b : bound) : dbound (D U) (LT U) :=
    match b with
    | BLt lt => DBLt (lts_of E lt)
    | BTrait maybe lts (Path lead segs) =>
      DBTrait maybe lts (path_of (under lts E) lead (map (den_seg (under lts E)) segs))
    end
  with den_expr (E : E_) (e : expr) : D U :=
    match e with
    | EPath q (Path lead segs) =>
      match q with
      | None => path_of E lead (map (den_seg E) segs)
      | Some (t', n) => qpath_of E (den_ty E t') n lead (map (den_seg E) segs)
      end
    | ELit s => u_lit U s
    | ECall f l => u_call U (den_expr E f) (map (den_expr E) l)
    | EMacro m ts => u_macro U E m ts
    end.
  Definition den_path (E : E_) (p : path) : D U :=
    match p with Path lead segs => path_of E lead (map (den_seg E) segs) end.

  (** ** Parameters

      The environment inside an item with parameters [ps], when the parameters
      are instantiated by [s] (types and constants) and [l] (lifetimes). *)
  Definition param_names (ps : list gparam) : list string :=
    flat_map (fun p => match p with PLt _ _ => [] | PTy i _ _ | PConst i _ _ => [name i] end) ps.
  Definition param_lts (ps : list gparam) : list string :=
    flat_map (fun p => match p with PLt lt _ => [lt] | _ => [] end) ps.
  Definition with_params (ps : list gparam) (s : string -> D U) (l : string -> LT U) (E : E_) : E_ :=
    mkEnv (fun x => if existsb (String.eqb x) (param_names ps) then HDone (s x) else names E x)
          (fun x => if existsb (String.eqb x) (param_lts ps) then l x else lts_of E x).
  Definition with_self (d : D U) (E : E_) : E_ :=
    mkEnv (fun x => if String.eqb x "Self" then HDone d else names E x) (lts_of E).
  (** The arguments that instantiate the parameters, in order. *)
  Definition param_args (ps : list gparam) (s : string -> D U) (l : string -> LT U) : list arg :=
    map (fun p => match p with
                  | PLt lt _ => DLt (l lt)
                  | PTy i _ _ | PConst i _ _ => DTy (s (name i))
                  end) ps.
End Meaning.
Arguments bind_lts {U}. Arguments under {U}. Arguments use_head {U}. Arguments sels {U}.
Arguments path_of {U}. Arguments qpath_of {U}. Arguments den_ty {U}. Arguments den_seg {U}.
Arguments den_gargs {U}. Arguments den_garg {U}. Arguments den_bound {U}. Arguments den_expr {U}.
Arguments den_path {U}. Arguments with_params {U}. Arguments with_self {U}. Arguments param_args {U}.
