(** Safe programs around a pinned value, continued: what becomes possible where
    types are [Unpin].  [Pin::get_mut] turns [Pin<&mut T>] into [&mut T] exactly
    when [T: Unpin] (core::pin). *)
From Coq Require Import String Ascii List Bool Arith Permutation.
From Verif Require Import Base Syntax ModelArgs ModelUtils ModelDerive ModelRun SpecRun ModelHistory.
Import ListNotations.
Open Scope string_scope.
Open Scope list_scope.

Section Unpin.
  Variable w : world.
  (** The type itself is [Unpin], and so is the type of a field; at the instance
      of the generics that the pinned value has. *)
  Variable self_unpin : Prop.
  Variable field_unpin : field -> Prop.

  (** The declaration of field [i] of the pinned value. *)
  Definition declared (h : hist) (i : nat) (f : field) : Prop :=
    exists u t vp fs, h_st h = holding u t Run /\ value_of (w_item w) u vp fs /\ nth_error (fields_list fs) i = Some f.
  (** [v], a part of what [project] returned, can be turned into [&mut] field [i]. *)
  Definition gives_mut (h : hist) (v : rv) (i : nat) : Prop :=
    v = RRef true (PlField i) \/ (v = RPin true (PlField i) /\ exists f, declared h i f /\ field_unpin f).
  (** [mem::replace(r, u)] for [r: &mut Self]: all fields are moved out. *)
  Definition take_all (old u : uval) (s : st) : st :=
    overwrite PlSelf u (mkSt (s_var s) (s_slots s) (s_trace s ++ map read_out (all_fields old)) (s_stat s)).

  Inductive step_unpin (h : hist) : hist -> Prop :=
  (* everything that is possible anyway *)
  | U_step h' : step w h h' -> step_unpin h h'
  (* [mem::replace(self.as_mut().project().n.get_mut(), id)] *)
  | U_take p l s n v i old id rest : s_stat (h_st h) = Run -> h_alive h = true ->
      call_method w "project" (RPin true PlSelf) [] (h_st h) = Some (Some (RProj p l), s) ->
      In (n, v) l -> gives_mut h v i -> nth_error (s_slots s) i = Some (Some old) ->
      Permutation (h_owned h) (id :: rest) ->
      step_unpin h (mkHist (take_field i old id s) (h_alive h) (h_stack h) (old :: rest) (h_created h))
  (* [let p = self.as_mut().project(); mem::swap(p.n.get_mut(), p.m.get_mut())] *)
  | U_swap p l s n m v v' i j x y : s_stat (h_st h) = Run -> h_alive h = true ->
      call_method w "project" (RPin true PlSelf) [] (h_st h) = Some (Some (RProj p l), s) ->
      In (n, v) l -> In (m, v') l -> gives_mut h v i -> gives_mut h v' j -> i <> j ->
      nth_error (s_slots s) i = Some (Some x) -> nth_error (s_slots s) j = Some (Some y) ->
      step_unpin h (with_st h (take_field j y x (take_field i x y s)))
  (* [let r = self.as_mut().get_mut();], then [r.n = id], [mem::replace(&mut r.n, id)],
     [mem::swap(&mut r.n, &mut r.m)] and [mem::replace(r, u)] *)
  | U_self_assign i old id rest : self_unpin -> s_stat (h_st h) = Run -> h_alive h = true ->
      nth_error (s_slots (h_st h)) i = Some (Some old) -> Permutation (h_owned h) (id :: rest) ->
      step_unpin h (mkHist (caught (assign_field w i id (h_st h))) (h_alive h) (h_stack h) rest (h_created h))
  | U_self_take i old id rest : self_unpin -> s_stat (h_st h) = Run -> h_alive h = true ->
      nth_error (s_slots (h_st h)) i = Some (Some old) -> Permutation (h_owned h) (id :: rest) ->
      step_unpin h (mkHist (take_field i old id (h_st h)) (h_alive h) (h_stack h) (old :: rest) (h_created h))
  | U_self_swap i j x y : self_unpin -> s_stat (h_st h) = Run -> h_alive h = true -> i <> j ->
      nth_error (s_slots (h_st h)) i = Some (Some x) -> nth_error (s_slots (h_st h)) j = Some (Some y) ->
      step_unpin h (with_st h (take_field j y x (take_field i x y (h_st h))))
  | U_self_replace old t u vp fs rest : self_unpin -> h_alive h = true -> h_st h = holding old t Run ->
      value_of (w_item w) u vp fs -> Permutation (h_owned h) (u_ids u ++ rest) ->
      step_unpin h (mkHist (take_all old u (h_st h)) (h_alive h) (h_stack h) (u_ids old ++ rest) (h_created h)).

  Inductive steps_unpin : hist -> hist -> Prop :=
  | Usteps_refl h : steps_unpin h h
  | Usteps_step h1 h2 h3 : steps_unpin h1 h2 -> step_unpin h2 h3 -> steps_unpin h1 h3.
End Unpin.
