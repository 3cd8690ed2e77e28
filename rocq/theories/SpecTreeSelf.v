(** Vocabulary for C76: pointers from a pinned field to itself, under the rules of Tree
    Borrows. *)
From Coq Require Import String Ascii List Bool Arith.
From Verif Require Import Base Syntax ModelArgs ModelDerive ModelRun ModelAlias ModelTree.
From Verif Require Import SpecArgs SpecDerive SpecExpand SpecRun SpecAlias SpecSelfRef SpecTree.
Import ListNotations.
Open Scope string_scope.
Open Scope list_scope.

(** Under these rules a copy of a raw pointer, or of a reference that is treated like
    one (see [relax] in SpecSelfRef.v), has the same ancestors as the original: the
    pointers are the same to the rules.  All of them can be written through. *)
Definition kin (ts : list nat) (s : tree) : Prop :=
  exists p, forall t, In t ts -> tree_path t (tr_ptrs s) = Some p /\ tree_access true t s <> None.

(** As [tree_within] in SpecTree.v: a program that starts with the pointer [t] to a
    pinned value and with the pointers [kept] has got hold of the pointer [c] to the
    value or to a structurally pinned field of a structurally pinned field and so on.
    On the way it has led lives in the sense of SpecSelfRef.v, in which some of the
    pointers it has were used too.  [ks]: all pointers that it has had on the way. *)
Inductive self_within (kept : loc -> list nat) (t n : nat) (mem : forest) : (loc -> list nat) -> nat -> nat -> forest -> Prop :=
| SW_start : self_within kept t n mem kept t n mem
| SW_life ks c n1 mem1 w a v uses np own ops n2 mem2 :
    self_within kept t n mem ks c n1 mem1 ->
    program w a -> variant_of_item (w_item w) v -> np PlSelf = true -> storable np own -> (forall l, incl (own l) (ks l)) ->
    life w a v uses np own c n1 ops n2 -> grows ops mem1 mem2 ->
    self_within kept t n mem ks c n2 mem2
| SW_field ks c n1 mem1 w a v uses np own ptrs ops us n2 mem2 x k d :
    self_within kept t n mem ks c n1 mem1 ->
    program w a -> has_proj PMut (w_item w) a = true -> variant_of_item (w_item w) v ->
    np PlSelf = true -> storable np own -> (forall l, incl (own l) (ks l)) ->
    alias_project w v uses "project" true c n1 = Some (AvProj ptrs, ops, n2) ->
    Forall (fun o => through true ptrs o \/ own_use own true o) us -> grows (relaxed np ops ++ us) mem1 mem2 ->
    In x ptrs -> snd x = AvPin true (PlField k) d -> np (PlField k) = true ->
    self_within kept t n mem (fun _ => c :: ks (LField k)) d n2 (fun _ => mem2 (LField k)).
