(** Vocabulary for C69: pointers from a pinned field to itself. *)
From Coq Require Import String Ascii List Bool Arith.
From Verif Require Import Base Syntax ModelArgs ModelDerive ModelRun ModelAlias.
From Verif Require Import SpecArgs SpecDerive SpecExpand SpecRun SpecAlias.
Import ListNotations.
Open Scope string_scope.
Open Scope list_scope.

(** The rules in use have an exception for [&mut T] where [T] is not [Unpin]: such a
    reference is treated like a raw pointer, as [T] may contain pointers to itself.
    [np p]: the type of the part [p] is not [Unpin]. *)
Definition relax (np : place -> bool) (o : op) : op :=
  match o with
  | ORetag PkMut prot p f t => if np p then ORetag PkRaw false p f t else o
  | _ => o
  end.
Definition relaxed (np : place -> bool) (os : list op) : list op := map (relax np) os.

(** All of the pointers can be used for reading and writing without invalidating
    another one of them: they lie together below entries that are not protected. *)
Definition together (ts : list nat) (s : stack) : Prop :=
  exists above group below, s = above ++ group ++ below /\
    Forall (fun x => en_perm x = SharedRW) group /\
    Forall (fun x => en_prot x = false /\ ~ In (en_tag x) ts) above /\
    incl ts (map en_tag group).

(** [own l]: the pointers to the part [l] that the value stores somewhere, for
    instance in the part itself.  Only parts that are not [Unpin] have such pointers. *)
Definition storable (np : place -> bool) (own : loc -> list nat) : Prop :=
  forall i r, In r (own (LField i)) -> np (PlField i) = true.
Definition own_use (own : loc -> list nat) (write : bool) (o : op) : Prop :=
  exists b i r, In r (own (LField i)) /\ (b = true -> write = true) /\ o = OUse b (PlField i) r.

(** The operations of both lists, in some order that keeps that of each list. *)
Inductive mixed : list op -> list op -> list op -> Prop :=
| X_end : mixed [] [] []
| X_left o os us all : mixed os us all -> mixed (o :: os) us (o :: all)
| X_right u os us all : mixed os us all -> mixed os (u :: us) (u :: all).

(** What a program can do with the pinned pointer [t] and the stored ones: use a
    stored pointer; call [project] and use its result and the stored pointers in any
    order; call [project_ref] and read through its result and the stored pointers
    in any order; call the destructor, during which the stored pointers are used. *)
Inductive life (w : world) (a : args) (v : option ident) (uses : place -> list (bool * place)) (np : place -> bool)
    (own : loc -> list nat) (t : nat) : nat -> list op -> nat -> Prop :=
| L_end n : life w a v uses np own t n [] n
| L_own n o os n' : own_use own true o -> life w a v uses np own t n os n' -> life w a v uses np own t n (o :: os) n'
| L_project n ptrs ops n1 us os n' : has_proj PMut (w_item w) a = true ->
    alias_project w v uses "project" true t n = Some (AvProj ptrs, ops, n1) ->
    Forall (fun o => through true ptrs o \/ own_use own true o) us ->
    life w a v uses np own t n1 os n' -> life w a v uses np own t n (relaxed np ops ++ us ++ os) n'
| L_project_ref n ptrs ops n1 us os n' : has_proj PRef (w_item w) a = true ->
    alias_project w v uses "project_ref" false t n = Some (AvProj ptrs, ops, n1) ->
    Forall (fun o => through false ptrs o \/ own_use own false o) us ->
    life w a v uses np own t n1 os n' -> life w a v uses np own t n (relaxed np ops ++ us ++ os) n'
| L_drop n r ops n1 us all os n' :
    alias_destroy w v uses t n = Some (r, ops, n1) -> Forall (own_use own true) us -> mixed (relaxed np ops) us all ->
    life w a v uses np own t n1 os n' -> life w a v uses np own t n (all ++ os) n'.

(** As [within] in SpecAlias.v: a program that starts with the pointer [t] to a pinned
    value and with the pointers [kept] has got hold of the pointer [c] to the value or to
    a structurally pinned field of a structurally pinned field and so on.  On the way it
    has led such lives, in which some of the pointers it has were used too.  [ks]: all
    pointers that it has had on the way. *)
Inductive lives_within (kept : loc -> list nat) (t n : nat) (mem : memory) : (loc -> list nat) -> nat -> nat -> memory -> Prop :=
| LW_start : lives_within kept t n mem kept t n mem
| LW_life ks c n1 mem1 w a v uses np own ops n2 mem2 :
    lives_within kept t n mem ks c n1 mem1 ->
    program w a -> variant_of_item (w_item w) v -> np PlSelf = true -> storable np own -> (forall l, incl (own l) (ks l)) ->
    life w a v uses np own c n1 ops n2 -> runs ops mem1 mem2 ->
    lives_within kept t n mem ks c n2 mem2
| LW_field ks c n1 mem1 w a v uses np own ptrs ops us n2 mem2 x k d :
    lives_within kept t n mem ks c n1 mem1 ->
    program w a -> has_proj PMut (w_item w) a = true -> variant_of_item (w_item w) v ->
    np PlSelf = true -> storable np own -> (forall l, incl (own l) (ks l)) ->
    alias_project w v uses "project" true c n1 = Some (AvProj ptrs, ops, n2) ->
    Forall (fun o => through true ptrs o \/ own_use own true o) us -> runs (relaxed np ops ++ us) mem1 mem2 ->
    In x ptrs -> snd x = AvPin true (PlField k) d -> np (PlField k) = true ->
    lives_within kept t n mem (fun _ => c :: ks (LField k)) d n2 (fun _ => mem2 (LField k)).
