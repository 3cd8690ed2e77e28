(** The other proposed aliasing rules, those of Tree Borrows, for the operations of
    ModelAlias.v, i.e. for the generated methods
    (/repo/pin-project-internal/src/pin_project/derive.rs:410-421, 494-508, 550-558,
    603-627, 670-687, 873-883, 964-1012) and the functions of /repo/src/lib.rs:181-349.

    Every reference that is created from a pointer becomes a child of its tag; a raw
    pointer has the tag of the reference it comes from.  An access through a pointer is
    local for its tag and the ancestors of this tag, and foreign for all other tags; it
    changes the states of the tags, and if one of them does not allow it, it is
    undefined.  Simplifications: those of ModelAlias.v about the parts of a value; there
    is no interior mutability; the read that happens when a reference is created is done
    before its tag is added, which is the same because it would not change the new state. *)
From Coq Require Import List Bool Arith.
From Verif Require Import Base Syntax ModelRun ModelAlias.
Import ListNotations.
Open Scope list_scope.

Inductive tstate : Type :=
| TReserved (conflicted : bool)   (* &mut T that has not been written through *)
| TActive                         (* &mut T that has *)
| TFrozen                         (* &T *)
| TDisabled.
Record node : Type := mkNode { nd_tag : nat; nd_state : tstate; nd_prot : bool }.
(** [tr_ptrs]: the pointers; for each its tag and the ancestors of the tag.  Both lists
    have the newest first. *)
Record tree : Type := mkTree { tr_ptrs : list (nat * list nat); tr_nodes : list node }.

Fixpoint tree_path (t : nat) (ps : list (nat * list nat)) : option (list nat) :=
  match ps with [] => None | (u, p) :: r => if Nat.eqb u t then Some p else tree_path t r end.
Definition elem (t : nat) (p : list nat) : bool := existsb (Nat.eqb t) p.

(** [None] is undefined behaviour. *)
Definition next_state (write local prot : bool) (st : tstate) : option tstate :=
  match local, write with
  | true, false => match st with TDisabled => None | _ => Some st end
  | true, true =>
    match st with
    | TReserved c => if c && prot then None else Some TActive
    | TActive => Some TActive
    | TFrozen | TDisabled => None
    end
  | false, false =>
    match st with
    | TReserved c => Some (TReserved (c || prot))
    | TActive => if prot then None else Some TFrozen
    | TFrozen | TDisabled => Some st
    end
  | false, true =>
    match st with
    | TDisabled => Some TDisabled
    | _ => if prot then None else Some TDisabled
    end
  end.
Definition node_access (write : bool) (p : list nat) (x : node) : option node :=
  option_map (fun st => mkNode (nd_tag x) st (nd_prot x)) (next_state write (elem (nd_tag x) p) (nd_prot x) (nd_state x)).
Fixpoint all_nodes (f : node -> option node) (l : list node) : option (list node) :=
  match l with
  | [] => Some []
  | x :: r => match f x, all_nodes f r with Some y, Some s => Some (y :: s) | _, _ => None end
  end.
Definition tree_access (write : bool) (t : nat) (s : tree) : option tree :=
  match tree_path t (tr_ptrs s) with
  | None => None
  | Some p => option_map (mkTree (tr_ptrs s)) (all_nodes (node_access write p) (tr_nodes s))
  end.

Definition tree_retag (k : pkind) (prot : bool) (from to_ : nat) (s : tree) : option tree :=
  match tree_path from (tr_ptrs s) with
  | None => None
  | Some p =>
    let new st :=
      option_map (fun l => mkTree ((to_, to_ :: p) :: tr_ptrs s) (mkNode to_ st prot :: l))
        (all_nodes (node_access false p) (tr_nodes s)) in
    match k with
    | PkMut => new (TReserved false)
    | PkShared => new TFrozen
    | PkRaw => Some (mkTree ((to_, p) :: tr_ptrs s) (tr_nodes s))
    end
  end.

(** When a function returns, its protected argument counts as accessed once more, for
    all tags but those made from it. *)
Definition find_node (t : nat) (s : tree) : option node := find (fun x => Nat.eqb (nd_tag x) t) (tr_nodes s).
Definition below (t : nat) (s : tree) (x : node) : bool :=
  match tree_path (nd_tag x) (tr_ptrs s) with Some p => elem t p | None => false end.
Definition unprotect (t : nat) (x : node) : node :=
  if Nat.eqb (nd_tag x) t then mkNode (nd_tag x) (nd_state x) false else x.
Definition tree_release (t : nat) (s : tree) : option tree :=
  match find_node t s, tree_path t (tr_ptrs s) with
  | Some x, Some p =>
    if nd_prot x then
      match nd_state x with
      | TDisabled => Some (mkTree (tr_ptrs s) (map (unprotect t) (tr_nodes s)))
      | st =>
        let write := match st with TActive => true | _ => false end in
        option_map (fun l => mkTree (tr_ptrs s) (map (unprotect t) l))
          (all_nodes (fun y => if below t s y then Some y else node_access write p y) (tr_nodes s))
      end
    else Some s
  | _, _ => Some s
  end.

Definition tree_step (l : loc) (o : op) (s : tree) : option tree :=
  match o with
  | ORetag k prot p from to_ => if covers p l then tree_retag k prot from to_ s else Some s
  | OUse write p t => if covers p l then tree_access write t s else Some s
  | ORelease t => tree_release t s
  end.
Fixpoint tree_steps (l : loc) (os : list op) (s : tree) : option tree :=
  match os with [] => Some s | o :: r => match tree_step l o s with Some s' => tree_steps l r s' | None => None end end.
