(** Safe programs around a pinned value: what safe code can do with
    [Pin<&mut Self>] through the methods generated by
    /repo/pin-project-internal/src/pin_project/derive.rs:942-1033, and with the
    values that it owns. *)
From Coq Require Import String Ascii List Bool Arith Permutation.
From Verif Require Import Base Syntax ModelArgs ModelUtils ModelDerive ModelRun SpecRun.
Import ListNotations.
Open Scope string_scope.
Open Scope list_scope.

(** ** Writing to one field *)

(** The value [id] is written to field [i]; the old one must be gone. *)
Definition store_field (i id : nat) (s : st) : st :=
  if live s then mkSt (s_var s) (set_nth i (Some id) (s_slots s)) (s_trace s ++ [EvStore i id]) (s_stat s) else s.
(** [*r = v] for [r: &mut T], and [Pin::set] for [Pin<&mut T>]: the old value is
    destroyed and the new one is written, also if the destructor panics. *)
Definition assign_field (w : world) (i id : nat) (s : st) : st := store_field i id (drop_slot w i s).
(** [mem::replace(r, v)] for [r: &mut T]: the old value is moved out. *)
Definition take_field (i old id : nat) (s : st) : st := store_field i id (add_event s (EvRead i old)).

(** A panic that leaves an operation is caught by the caller; after an abort
    there is no caller. *)
Definition caught (s : st) : st := match s_stat s with Unwind => set_stat s Run | _ => s end.

(** ** Histories

    A value being destroyed is on the stack while the user's [PinnedDrop::drop]
    runs: [None] for the final drop, [Some u] if [u] is being assigned to it with
    [Pin::set].  The state next to it is the one after the body. *)
Record hist : Type := mkHist {
  h_st : st;                               (* memory, trace *)
  h_alive : bool;                          (* the pinned value was not yet dropped *)
  h_stack : list (option uval * stat);
  h_owned : list nat;                      (* values owned by the caller *)
  h_created : list nat                     (* all values that ever existed *)
}.
Definition with_st (h : hist) (s : st) : hist := mkHist s (h_alive h) (h_stack h) (h_owned h) (h_created h).

(** A pinned value [u]. *)
Definition begin (u : uval) : hist := mkHist (start u) true [] [] (u_ids u).

(** Operations of safe code.  What is possible with the result of [project]
    depends on what [project] really returned: [&mut T] gives full access, with
    [Pin<&mut T>] one can only destroy the old value and write a new one.
    Simplification: fields pinned by [#[pin]] are taken to have types that are
    not [Unpin]; for other types [Pin<&mut T>] is as good as [&mut T] and may be
    used to move the value. *)
Inductive step (w : world) (h : hist) : hist -> Prop :=
(* a new value *)
| S_new id : s_stat (h_st h) = Run -> ~ In id (h_created h) ->
    step w h (mkHist (h_st h) (h_alive h) (h_stack h) (id :: h_owned h) (id :: h_created h))
(* the caller drops a value that it owns *)
| S_drop id rest : s_stat (h_st h) = Run -> Permutation (h_owned h) (id :: rest) ->
    step w h (mkHist (caught (drop_id w PlTemp id (h_st h))) (h_alive h) (h_stack h) rest (h_created h))
(* .. or a value of the user's type that was never pinned *)
| S_drop_user u rest vp fs : s_stat (h_st h) = Run -> Permutation (h_owned h) (u_ids u ++ rest) ->
    value_of (w_item w) u vp fs ->
    step w h (mkHist (caught (drop_user w u (h_st h))) (h_alive h) (h_stack h) rest (h_created h))
(* [self.as_ref().project_ref()] *)
| S_project_ref r s : s_stat (h_st h) = Run -> h_alive h = true ->
    call_method w "project_ref" (RPin false PlSelf) [] (h_st h) = Some (r, s) ->
    step w h (with_st h s)
(* [*self.as_mut().project().n = id], [self.as_mut().project().n.set(id)] *)
| S_assign p l s n v i id rest : s_stat (h_st h) = Run -> h_alive h = true ->
    call_method w "project" (RPin true PlSelf) [] (h_st h) = Some (Some (RProj p l), s) ->
    In (n, v) l -> v = RRef true (PlField i) \/ v = RPin true (PlField i) ->
    Permutation (h_owned h) (id :: rest) ->
    step w h (mkHist (caught (assign_field w i id s)) (h_alive h) (h_stack h) rest (h_created h))
(* [mem::replace(self.as_mut().project().n, id)] *)
| S_take p l s n i old id rest : s_stat (h_st h) = Run -> h_alive h = true ->
    call_method w "project" (RPin true PlSelf) [] (h_st h) = Some (Some (RProj p l), s) ->
    In (n, RRef true (PlField i)) l -> nth_error (s_slots s) i = Some (Some old) ->
    Permutation (h_owned h) (id :: rest) ->
    step w h (mkHist (take_field i old id s) (h_alive h) (h_stack h) (old :: rest) (h_created h))
(* [let p = self.as_mut().project(); mem::swap(p.n, p.m)] *)
| S_swap p l s n m i j x y : s_stat (h_st h) = Run -> h_alive h = true ->
    call_method w "project" (RPin true PlSelf) [] (h_st h) = Some (Some (RProj p l), s) ->
    In (n, RRef true (PlField i)) l -> In (m, RRef true (PlField j)) l -> i <> j ->
    nth_error (s_slots s) i = Some (Some x) -> nth_error (s_slots s) j = Some (Some y) ->
    step w h (with_st h (take_field j y x (take_field i x y s)))
(* [self.as_mut().project_replace(u)] *)
| S_replace u vp fs v s rest : s_stat (h_st h) = Run -> h_alive h = true ->
    value_of (w_item w) u vp fs -> Permutation (h_owned h) (u_ids u ++ rest) ->
    call_method w "project_replace" (RPin true PlSelf) [RUser u] (h_st h) = Some (v, s) ->
    step w h (mkHist (caught s) (h_alive h) (h_stack h) (owned_opt v ++ rest) (h_created h))
(* [self.set(u)], possibly inside of [PinnedDrop::drop], or the final drop; both
   begin with the destructor of the user's type, possibly while unwinding ([x]);
   [PinnedDrop::drop] can use the pinned value *)
| S_set u vp fs rest x : s_stat (h_st h) = Run -> h_alive h = true -> x = Run \/ x = Unwind ->
    value_of (w_item w) u vp fs -> Permutation (h_owned h) (u_ids u ++ rest) ->
    let s := call_drop w PlSelf (set_stat (h_st h) x) in
    step w h (mkHist (caught s) true ((Some u, s_stat s) :: h_stack h) rest (h_created h))
| S_final x : s_stat (h_st h) = Run -> h_alive h = true -> h_stack h = [] -> x = Run \/ x = Unwind ->
    let s := call_drop w PlSelf (set_stat (h_st h) x) in
    step w h (mkHist (caught s) true [(None, s_stat s)] (h_owned h) (h_created h))
(* .. and go on with the fields and the assignment *)
| S_set_end u x rest : s_stat (h_st h) = Run -> h_stack h = (Some u, x) :: rest ->
    let s := drop_slots w 0 (length (s_slots (h_st h))) (set_stat (h_st h) x) in
    step w h (mkHist (caught (overwrite PlSelf u s)) true rest (h_owned h) (h_created h))
| S_final_end x : s_stat (h_st h) = Run -> h_stack h = [(None, x)] ->
    let s := drop_slots w 0 (length (s_slots (h_st h))) (set_stat (h_st h) x) in
    step w h (mkHist (caught s) false [] (h_owned h) (h_created h)).

Inductive steps (w : world) : hist -> hist -> Prop :=
| Steps_refl h : steps w h h
| Steps_step h1 h2 h3 : steps w h1 h2 -> step w h2 h3 -> steps w h1 h3.
