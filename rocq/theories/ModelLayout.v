(** Layouts and the compiler's check of references to fields.

    This models the compiler, for the function that the derive generates in
    /repo/pin-project-internal/src/pin_project/derive.rs:1117-1142.  Alignments
    are powers of two and given by their exponents.  A struct may be packed by
    an attribute that the derive did not see. *)
From Coq Require Import String List Bool Arith.
From Verif Require Import Base Syntax ModelUtils.
Import ListNotations.
Open Scope string_scope.
Open Scope list_scope.

(** [repr(packed(2 ^ p))] caps the alignment of every field. *)
Definition capped (pack : option nat) (k : nat) : nat :=
  match pack with Some p => min p k | None => k end.

(** Where a value is: its address and the offsets of its fields, which have the
    alignments [ks].  The compiler may choose any offsets that respect the
    capped alignments; the value's own alignment is at least the largest one. *)
Record layout : Type := mkLayout { base : nat; offset : nat -> nat }.
Definition layout_legal (pack : option nat) (ks : list nat) (y : layout) : Prop :=
  (exists k, Forall (fun x => capped pack x <= k) ks /\ Nat.divide (2 ^ k) (base y)) /\
  forall i k, nth_error ks i = Some k -> Nat.divide (2 ^ capped pack k) (offset y i).
Definition address (y : layout) (i : nat) : nat := base y + offset y i.

(** [this.m], where [this] has the fields [fs]: [r#a] and [a] are the same. *)
Fixpoint position (x : string) (k : nat) (l : list field) : option nat :=
  match l with
  | [] => None
  | f :: r =>
    match f_ident f with
    | Some i => if String.eqb (name i) x then Some k else position x (S k) r
    | None => position x (S k) r
    end
  end.
Definition resolve (fs : fields) (m : member) : option nat :=
  match fs, m with
  | FNamed l, MNamed i => position (name i) 0 l
  | FUnnamed l, MIndex k => if Nat.ltb k (length l) then Some k else None
  | _, _ => None
  end.

Section Check.
  (** The instances of the type's parameters, and the alignment of each field. *)
  Variable inst : Type.
  Variable aligns : inst -> list nat.
  Variable pack : option nat.

  (** A reference that may be misaligned in some instance is an error in safe
      code: under the forbidden lints, and in current compilers always (E0793). *)
  Definition borrow_ok (i : nat) : Prop :=
    forall a k p, nth_error (aligns a) i = Some k -> pack = Some p -> k <= p.
  (** The generated function compiles; [self] is the type with fields [fs]. *)
  Definition assert_compiles (self : ty) (fs : fields) (it : oitem) : Prop :=
    match it with
    | OAssert _ t ms =>
      t = self -> forall m, In m ms -> match resolve fs m with Some i => borrow_ok i | None => False end
    | _ => True
    end.

  (** To destroy a packed struct the compiler moves a field away first, if it
      may be misaligned. *)
  Definition moved_before_drop (a : inst) (i : nat) : Prop :=
    exists k p, nth_error (aligns a) i = Some k /\ pack = Some p /\ p < k.
End Check.
