(** C81: every field is treated on its own. *)
From Coq Require Import String Ascii List Bool Arith.
From Verif Require Import Base Syntax ModelArgs ModelUtils ModelDerive ModelRun.
From Verif Require Import SpecArgs SpecDerive SpecExpand SpecRun SpecAlone.
From Verif Require Import ProofsAlone Examples ExamplesRun ExamplesNames.
Import ListNotations.
Open Scope string_scope.
Open Scope list_scope.

(** Two types, whatever their other fields: fields at the same position with the
    same mark are projected to the same. *)
Theorem C81_project : forall w w' a a' u u' vp vp' fs fs' t t' j,
  program w a -> program w' a' -> has_proj PMut (w_item w) a = true -> has_proj PMut (w_item w') a' = true ->
  value_of (w_item w) u vp fs -> value_of (w_item w') u' vp' fs' -> same_mark j fs fs' ->
  exists v v' p, call_method w "project" (RPin true PlSelf) [] (holding u t Run) = Some (v, holding u t Run) /\
    call_method w' "project" (RPin true PlSelf) [] (holding u' t' Run) = Some (v', holding u' t' Run) /\
    part j v = Some p /\ part j v' = Some p.
Proof. exact c81_project. Qed.
Print Assumptions C81_project.

Theorem C81_project_ref : forall w w' a a' u u' vp vp' fs fs' t t' j,
  program w a -> program w' a' -> has_proj PRef (w_item w) a = true -> has_proj PRef (w_item w') a' = true ->
  value_of (w_item w) u vp fs -> value_of (w_item w') u' vp' fs' -> same_mark j fs fs' ->
  exists v v' p, call_method w "project_ref" (RPin false PlSelf) [] (holding u t Run) = Some (v, holding u t Run) /\
    call_method w' "project_ref" (RPin false PlSelf) [] (holding u' t' Run) = Some (v', holding u' t' Run) /\
    part j v = Some p /\ part j v' = Some p.
Proof. exact c81_project_ref. Qed.
Print Assumptions C81_project_ref.

(** If the process is not aborted, exactly one thing happens to the field, the
    same in both, whichever destructors of other fields panic.  If both calls
    return, they return the same for the field. *)
Theorem C81_replace : forall w w' a a' u u' vp vp' fs fs' t t' r r' j id v v' s s',
  program w a -> program w' a' -> has_proj POwn (w_item w) a = true -> has_proj POwn (w_item w') a' = true ->
  value_of (w_item w) u vp fs -> value_of (w_item w') u' vp' fs' -> replaceable fs -> replaceable fs' ->
  same_mark j fs fs' -> nth_error (u_ids u) j = Some id -> nth_error (u_ids u') j = Some id ->
  call_method w "project_replace" (RPin true PlSelf) [RUser r] (holding u t Run) = Some (v, s) ->
  call_method w' "project_replace" (RPin true PlSelf) [RUser r'] (holding u' t' Run) = Some (v', s') ->
  s_stat s <> Abort -> s_stat s' <> Abort ->
  (exists ev ev' e, s_trace s = t ++ ev /\ s_trace s' = t' ++ ev' /\ filter (about j) ev = [e] /\ filter (about j) ev' = [e]) /\
  (v <> None -> v' <> None -> exists p, part j v = Some p /\ part j v' = Some p).
Proof. exact c81_replace. Qed.
Print Assumptions C81_replace.

(** When the value is dropped, exactly its destructor happens to a field. *)
Theorem C81_drop : forall w a u t x j id,
  program w a -> nth_error (u_ids u) j = Some id -> x = Run \/ x = Unwind -> s_stat (drop_self w (holding u t x)) <> Abort ->
  exists ev, s_trace (drop_self w (holding u t x)) = t ++ ev /\ filter (about j) ev = [EvDrop (PlField j) id].
Proof. exact c81_drop. Qed.
Print Assumptions C81_drop.

(** A struct with four fields, where the destructor of another field panics, and
    one with two. *)
Example C81_example :
  program (world_struct [3] false) opts_struct /\ program (world_pair []) opts_struct /\
  (forall k, has_proj k (w_item (world_struct [3] false)) opts_struct = true /\ has_proj k (w_item (world_pair [])) opts_struct = true) /\
  value_of (w_item (world_struct [3] false)) value_struct [] (FNamed fields_ex) /\
  value_of (w_item (world_pair [])) value_pair [] (FNamed fields_pair) /\
  replaceable (FNamed fields_ex) /\ replaceable (FNamed fields_pair) /\
  (forall j, j < 2 -> same_mark j (FNamed fields_ex) (FNamed fields_pair) /\
     exists id, nth_error (u_ids value_struct) j = Some id /\ nth_error (u_ids value_pair) j = Some id) /\
  (exists s s' v, call_method (world_struct [3] false) "project_replace" (RPin true PlSelf) [RUser other_struct] (holding value_struct [] Run) = Some (None, s) /\
     call_method (world_pair []) "project_replace" (RPin true PlSelf) [RUser value_pair] (holding value_pair [] Run) = Some (v, s') /\
     s_stat s = Unwind /\ s_stat s' = Run /\
     filter (about 0) (s_trace s) = [EvDrop (PlField 0) 1] /\ filter (about 1) (s_trace s') = [EvRead 1 2]).
Proof.
  split; [apply world_struct_program|]. split; [apply world_pair_program|]. split; [intros []; split; reflexivity|].
  split; [apply value_struct_ok|]. split; [apply value_pair_ok|]. split; [apply struct_replaceable|]. split; [apply pair_replaceable|].
  split.
  - intros [|[|j]] H; [| |do 2 apply Nat.succ_lt_mono in H; inversion H]; (split; [do 2 eexists; repeat split|eexists; split; reflexivity]).
  - do 3 eexists. split; [vm_compute; reflexivity|]. split; [vm_compute; reflexivity|]. repeat split.
Qed.
(** A field with another mark is treated otherwise. *)
Example C81_mark_matters : ~ same_mark 0 (FNamed fields_pair) (FNamed (rev fields_pair)) /\
  option_map snd (nth_error (references true (FNamed fields_pair)) 0) <> option_map snd (nth_error (references true (FNamed (rev fields_pair))) 0).
Proof.
  split; [|discriminate]. intros (f & f' & E & E' & M). injection E as <-. injection E' as <-. discriminate M.
Qed.
