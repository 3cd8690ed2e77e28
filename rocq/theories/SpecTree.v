(** Vocabulary for C72: the rules of Tree Borrows. *)
From Coq Require Import String Ascii List Bool Arith.
From Verif Require Import Base Syntax ModelArgs ModelDerive ModelRun ModelAlias ModelTree.
From Verif Require Import SpecArgs SpecDerive SpecExpand SpecRun SpecAlias.
Import ListNotations.
Open Scope string_scope.
Open Scope list_scope.

(** The tags of all parts of [*self]. *)
Definition forest : Type := loc -> tree.
(** The operations happen without undefined behaviour, and lead from [m] to [m']. *)
Definition grows (os : list op) (m m' : forest) : Prop := forall l, tree_steps l os (m l) = Some (m' l).
(** The whole of [*self] can be read ([false]) or written through the pointer. *)
Definition tree_usable (write : bool) (t : nat) (m : forest) : Prop := forall l, tree_access write t (m l) <> None.
(** The part can be read through the pointer, and this changes nothing. *)
Definition tree_readable (t : nat) (p : place) (m : forest) : Prop :=
  forall l, covers p l = true -> tree_access false t (m l) = Some (m l).
(** The tags from [n] on have not been used. *)
Definition unused_in (n : nat) (s : tree) : Prop :=
  (forall t p, In (t, p) (tr_ptrs s) -> t < n /\ Forall (fun u => u < n) p) /\
  (forall x, In x (tr_nodes s) -> nd_tag x < n).
Definition unused (n : nat) (m : forest) : Prop := forall l, unused_in n (m l).
(** A write through [t] leads to the same from both, but for the tags that have been
    added from [n] on, and these cannot be used any more nor are in the way. *)
Definition gone (n : nat) (x : node) : Prop := n <= nd_tag x /\ nd_state x = TDisabled /\ nd_prot x = false.
Definition same_write (t n : nat) (s1 s2 : tree) : Prop :=
  exists r1 r2 ps xs,
    tree_access true t s1 = Some r1 /\ tree_access true t s2 = Some r2 /\
    tr_ptrs r2 = ps ++ tr_ptrs r1 /\ Forall (fun x => n <= fst x) ps /\
    tr_nodes r2 = xs ++ tr_nodes r1 /\ Forall (gone n) xs.
Definition given_back (t n : nat) (m m' : forest) : Prop := forall l, same_write t n (m l) (m' l).

(** As [within] in SpecAlias.v: a program that starts with the pointer [t] has, by using
    pointers and by projecting, got hold of the pointer [c] to the value or to a
    structurally pinned field of a structurally pinned field and so on. *)
Inductive tree_within (t n : nat) (mem : forest) : nat -> nat -> forest -> Prop :=
| TW_start : tree_within t n mem t n mem
| TW_session c n1 mem1 w a uses v ops v' n2 mem2 :
    tree_within t n mem c n1 mem1 ->
    program w a -> (forall fs, In fs (fields_of (w_item w)) -> replaceable fs) -> variant_of_item (w_item w) v ->
    session w a uses c v n1 ops v' n2 -> grows ops mem1 mem2 ->
    tree_within t n mem c n2 mem2
| TW_field c n1 mem1 w a uses v ptrs ops n2 mem2 x k d :
    tree_within t n mem c n1 mem1 ->
    program w a -> has_proj PMut (w_item w) a = true -> variant_of_item (w_item w) v ->
    alias_project w v uses "project" true c n1 = Some (AvProj ptrs, ops, n2) -> grows ops mem1 mem2 ->
    In x ptrs -> snd x = AvPin true (PlField k) d ->
    tree_within t n mem d n2 (fun _ => mem2 (LField k)).
