(** Vocabulary for the property about the aliasing rules. *)
From Coq Require Import String Ascii List Bool Arith.
From Verif Require Import Base Syntax ModelArgs ModelDerive ModelRun ModelAlias.
From Verif Require Import SpecArgs SpecDerive SpecExpand SpecRun.
Import ListNotations.
Open Scope string_scope.
Open Scope list_scope.

(** The stacks of tags of all parts of [*self]. *)
Definition memory : Type := loc -> stack.
(** The operations happen without undefined behaviour, and lead from [m] to [m']. *)
Definition runs (os : list op) (m m' : memory) : Prop := forall l, steps l os (m l) = Some (m' l).
(** The whole of [*self] can be read ([false]) or written through the pointer. *)
Definition usable (write : bool) (t : nat) (m : memory) : Prop := forall l, access write t (m l) <> None.
(** The tags from [n] on have not been used. *)
Definition fresh (n : nat) (m : memory) : Prop := forall l x, In x (m l) -> en_tag x < n.
(** The pointer has not been used up: it can be read through without invalidating any other. *)
Definition readable (t : nat) (p : place) (m : memory) : Prop :=
  forall l, covers p l = true -> access false t (m l) = Some (m l).

(** The value without its tags. *)
Definition forget (v : av) : option rv :=
  match v with
  | AvPtr PkMut p _ => Some (RRef true p)
  | AvPtr PkShared p _ => Some (RRef false p)
  | AvPin m p _ => Some (RPin m p)
  | _ => None
  end.
(** The place and the tag of a pointer. *)
Definition target (v : av) : option (place * nat) :=
  match v with AvPtr _ p t | AvPin _ p t => Some (p, t) | _ => None end.
(** Reads, or also writes, through one of the pointers. *)
Definition through (write : bool) (l : list (option ident * av)) (o : op) : Prop :=
  exists x p t b, In x l /\ target (snd x) = Some (p, t) /\ (b = true -> write = true) /\ o = OUse b p t.

(** The targets of the pointers in a projection. *)
Definition targets (l : list (option ident * av)) : list (place * nat) :=
  flat_map (fun x => match target (snd x) with Some y => [y] | None => [] end) l.
Definition variant_of_item (it : item) (v : option ident) : Prop := exists u vp fs, value_of it u vp fs /\ u_var u = v.

(** What a program can do with shared pointers, one after the other: read through any
    of them, copy it, or call [project_ref] and keep the results along with the
    others.  [v]: the variant of the value; [live]: the pointers there are; [n]: the
    next tag, before and after. *)
Inductive shared_session (w : world) (a : args) (uses : place -> list (bool * place)) (v : option ident)
  : list (place * nat) -> nat -> list op -> nat -> Prop :=
| H_end live n : shared_session w a uses v live n [] n
| H_read live n p q t rest n' : In (p, t) live -> inside q p = true ->
    shared_session w a uses v live n rest n' -> shared_session w a uses v live n (OUse false q t :: rest) n'
| H_copy live n p t rest n' : In (p, t) live ->
    shared_session w a uses v ((p, n) :: live) (S n) rest n' ->
    shared_session w a uses v live n (ORetag PkShared false p t n :: rest) n'
| H_project_ref live n t ptrs ops n1 rest n' : In (PlSelf, t) live ->
    has_proj PRef (w_item w) a = true ->
    alias_project w v uses "project_ref" false t n = Some (AvProj ptrs, ops, n1) ->
    shared_session w a uses v (targets ptrs ++ live) n1 rest n' ->
    shared_session w a uses v live n (ops ++ rest) n'.

(** What a program can do with a [Pin<&mut T>] (whose pointer is [t]), one after the
    other: use it directly; lend it ([as_mut], [as_ref]) and do the same with what it
    has lent; call [project] and use the results in any way; replace the value; call
    its destructor (and then those of the fields, which is use of parts of it).
    The variant of the value and the next tag: before and after. *)
Inductive session (w : world) (a : args) (uses : place -> list (bool * place))
  : nat -> option ident -> nat -> list op -> option ident -> nat -> Prop :=
| S_end t v n : session w a uses t v n [] v n
| S_use t v n b p rest v2 n2 :
    session w a uses t v n rest v2 n2 -> session w a uses t v n (OUse b p t :: rest) v2 n2
| S_as_mut t v n sub v1 n1 rest v2 n2 :
    session w a uses n v (S n) sub v1 n1 -> session w a uses t v1 n1 rest v2 n2 ->
    session w a uses t v n (ORetag PkMut false PlSelf t n :: sub ++ rest) v2 n2
| S_as_ref t v n sub n1 rest v2 n2 :
    shared_session w a uses v [(PlSelf, n)] (S n) sub n1 -> session w a uses t v n1 rest v2 n2 ->
    session w a uses t v n (ORetag PkShared false PlSelf t n :: sub ++ rest) v2 n2
| S_project t v n ptrs ops n' os rest v2 n2 :
    has_proj PMut (w_item w) a = true ->
    alias_project w v uses "project" true t n = Some (AvProj ptrs, ops, n') -> Forall (through true ptrs) os ->
    session w a uses t v n' rest v2 n2 -> session w a uses t v n (ops ++ os ++ rest) v2 n2
| S_replace t v n r ops n' v' rest v2 n2 :
    has_proj POwn (w_item w) a = true ->
    alias_project w v uses "project_replace" true t n = Some (r, ops, n') -> variant_of_item (w_item w) v' ->
    session w a uses t v' n' rest v2 n2 -> session w a uses t v n (ops ++ rest) v2 n2
| S_drop t v n r ops n' rest v2 n2 :
    alias_destroy w v uses t n = Some (r, ops, n') ->
    session w a uses t v n' rest v2 n2 -> session w a uses t v n (ops ++ rest) v2 n2.

(** Fields whose types are themselves pin-projected, to any depth.  [within t n mem c n' mem']:
    a program that starts with the pointer [t] has, by using pointers and by projecting,
    got hold of the pointer [c] to the value or to a structurally pinned field of a
    structurally pinned field and so on; [mem']: the tags of the parts of what [c] points to.
    - [W_session]: it has used [c] as in [session], for the item that [c] points to.
    - [W_field]: it has called [project] on [c], and goes on with one of the pinned
      pointers in the result.  All parts of the field start with the tags of the field. *)
Inductive within (t n : nat) (mem : memory) : nat -> nat -> memory -> Prop :=
| W_start : within t n mem t n mem
| W_session c n1 mem1 w a uses v ops v' n2 mem2 :
    within t n mem c n1 mem1 ->
    program w a -> (forall fs, In fs (fields_of (w_item w)) -> replaceable fs) -> variant_of_item (w_item w) v ->
    session w a uses c v n1 ops v' n2 -> runs ops mem1 mem2 ->
    within t n mem c n2 mem2
| W_field c n1 mem1 w a uses v ptrs ops n2 mem2 x k d :
    within t n mem c n1 mem1 ->
    program w a -> has_proj PMut (w_item w) a = true -> variant_of_item (w_item w) v ->
    alias_project w v uses "project" true c n1 = Some (AvProj ptrs, ops, n2) -> runs ops mem1 mem2 ->
    In x ptrs -> snd x = AvPin true (PlField k) d ->
    within t n mem d n2 (fun _ => mem2 (LField k)).
