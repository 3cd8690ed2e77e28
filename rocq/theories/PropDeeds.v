(** C77: what happens to the value does not depend on panics, and the pointers are used
    for nothing else.  The operations that the aliasing rules are checked for (C63,
    C69, C72, C76) and the events of a run with panics (C14-C25) are the same, in the
    same order; if the process aborts, the run has the first of them. *)
From Coq Require Import String Ascii List Bool Arith.
From Verif Require Import Base Syntax ModelArgs ModelUtils ModelDerive ModelRun ModelAlias.
From Verif Require Import SpecArgs SpecDerive SpecExpand SpecRun SpecAlias SpecDeeds ModelTree SpecTree.
From Verif Require Import ProofsDeeds Examples ExamplesRun.
Import ListNotations.
Open Scope string_scope.
Open Scope list_scope.

Theorem C77_replace : forall w a u vp fs uses t n tr r,
  program w a -> has_proj POwn (w_item w) a = true -> value_of (w_item w) u vp fs -> replaceable fs ->
  exists v s ev x ops n' rest,
    call_method w "project_replace" (RPin true PlSelf) [RUser r] (holding u tr Run) = Some (v, s) /\ s_trace s = tr ++ ev /\
    alias_project w (u_var u) uses "project_replace" true t n = Some (x, ops, n') /\
    deeds false (tl ops) = flat_map deed_of ev ++ rest /\ (s_stat s <> Abort -> rest = []).
Proof. exact c77_replace. Qed.
Print Assumptions C77_replace.
Example C77_replace_example : exists v s x ops n',
  program (world_struct [3; 2] false) opts_struct /\ has_proj POwn (w_item (world_struct [3; 2] false)) opts_struct = true /\
  value_of (w_item (world_struct [3; 2] false)) value_struct [] (FNamed fields_ex) /\ replaceable (FNamed fields_ex) /\
  call_method (world_struct [3; 2] false) "project_replace" (RPin true PlSelf) [RUser other_struct] (holding value_struct [] Run) = Some (v, s) /\
  s_stat s = Abort /\ flat_map deed_of (s_trace s) = [DCopied 1; DCopied 3; DUser (PlField 0); DUser (PlField 2)] /\
  alias_project (world_struct [3; 2] false) None (fun p => [(false, p); (true, p)]) "project_replace" true 0 1 = Some (x, ops, n') /\
  deeds false (tl ops) = [DCopied 1; DCopied 3; DUser (PlField 0); DUser (PlField 2); DWritten].
Proof.
  do 5 eexists. split; [apply world_struct_program|]. split; [vm_compute; reflexivity|]. split; [apply value_struct_ok|].
  split; [apply struct_replaceable|]. split; [vm_compute; reflexivity|]. split; [reflexivity|]. split; [reflexivity|].
  split; vm_compute; reflexivity.
Qed.

Theorem C77_project : forall w a u vp fs uses t n tr,
  program w a -> has_proj PMut (w_item w) a = true -> value_of (w_item w) u vp fs ->
  exists v s x ops n',
    call_method w "project" (RPin true PlSelf) [] (holding u tr Run) = Some (v, s) /\ s_trace s = tr /\
    alias_project w (u_var u) uses "project" true t n = Some (x, ops, n') /\ deeds false (tl ops) = [].
Proof. exact c77_project. Qed.
Print Assumptions C77_project.
Theorem C77_project_ref : forall w a u vp fs uses t n tr,
  program w a -> has_proj PRef (w_item w) a = true -> value_of (w_item w) u vp fs ->
  exists v s x ops n',
    call_method w "project_ref" (RPin false PlSelf) [] (holding u tr Run) = Some (v, s) /\ s_trace s = tr /\
    alias_project w (u_var u) uses "project_ref" false t n = Some (x, ops, n') /\ deeds false (tl ops) = [].
Proof. exact c77_project_ref. Qed.
Print Assumptions C77_project_ref.
Example C77_project_example : exists x ops n',
  program (world_enum [] false) opts_enum /\ has_proj PMut (w_item (world_enum [] false)) opts_enum = true /\
  has_proj PRef (w_item (world_enum [] false)) opts_enum = true /\
  (exists fs, value_of (w_item (world_enum [] false)) value_a [I "A"] fs) /\
  alias_project (world_enum [] false) (u_var value_a) (fun _ => []) "project" true 0 1 = Some (x, ops, n') /\ length ops = 7.
Proof.
  do 3 eexists. split; [apply world_enum_program|]. split; [vm_compute; reflexivity|]. split; [vm_compute; reflexivity|].
  split; [destruct (value_a_ok [] false) as (fs & H & _); exists fs; exact H|]. split; [vm_compute; reflexivity|reflexivity].
Qed.

(** The generated destructor, and then those of the fields (which the compiler adds). *)
Theorem C77_drop : forall w a u uses t n tr x,
  program w a -> x = Run \/ x = Unwind ->
  exists ev y ops n' rest,
    s_trace (drop_self w (holding u tr x)) = tr ++ ev /\
    alias_destroy w (u_var u) uses t n = Some (y, ops, n') /\
    deeds false (tl ops) ++ map (fun f => DUser (PlField (fst f))) (all_fields u) = flat_map deed_of ev ++ rest /\
    (s_stat (drop_self w (holding u tr x)) <> Abort -> rest = []).
Proof. exact c77_drop. Qed.
Print Assumptions C77_drop.
Example C77_drop_example : exists y ops n',
  program (world_enum [1] true) opts_enum /\
  s_trace (drop_self (world_enum [1] true) (holding value_a [] Run)) = [EvBody PlSelf; EvDrop (PlField 0) 1] /\
  s_stat (drop_self (world_enum [1] true) (holding value_a [] Run)) = Abort /\
  alias_destroy (world_enum [1] true) (u_var value_a) (fun p => [(true, p)]) 0 1 = Some (y, ops, n') /\
  deeds false (tl ops) ++ map (fun f => DUser (PlField (fst f))) (all_fields value_a) =
  [DUser PlSelf; DUser (PlField 0); DUser (PlField 1)].
Proof.
  do 3 eexists. split; [apply world_enum_program|]. split; [vm_compute; reflexivity|]. split; [vm_compute; reflexivity|].
  split; vm_compute; reflexivity.
Qed.

(** If the process aborts somewhere in between, there has been no undefined behaviour. *)
Theorem C77_replace_aborted : forall w a u vp fs uses t n mem x ops n' before after,
  program w a -> has_proj POwn (w_item w) a = true -> value_of (w_item w) u vp fs -> replaceable fs ->
  usable true t mem -> fresh n mem ->
  alias_project w (u_var u) uses "project_replace" true t n = Some (x, ops, n') -> ops = before ++ after ->
  exists mem', runs before mem mem'.
Proof. exact c77_replace_aborted. Qed.
Print Assumptions C77_replace_aborted.
Theorem C77_drop_aborted : forall w a v uses t n mem x ops n' before after,
  program w a -> usable true t mem -> fresh n mem ->
  alias_destroy w v uses t n = Some (x, ops, n') -> ops = before ++ after -> exists mem', runs before mem mem'.
Proof. exact c77_drop_aborted. Qed.
Print Assumptions C77_drop_aborted.
Example C77_aborted_example : exists x ops n',
  usable true 0 (fun _ => [mkEntry 0 Unique false]) /\ fresh 1 (fun _ => [mkEntry 0 Unique false]) /\
  alias_project (world_struct [3; 2] false) None (fun p => [(true, p)]) "project_replace" true 0 1 = Some (x, ops, n') /\
  deeds false (tl (firstn 20 ops)) = [DCopied 1; DCopied 3; DUser (PlField 0); DUser (PlField 2)] /\ 20 < length ops.
Proof.
  do 3 eexists. split; [intros l; discriminate|]. split; [intros l y [<-|[]]; apply le_n|].
  split; [vm_compute; reflexivity|]. vm_compute. split; [reflexivity|]. repeat constructor.
Qed.

(** The same under the rules of Tree Borrows. *)
Theorem C77_replace_aborted_tree : forall w a u vp fs uses t n mem x ops n' before after,
  program w a -> has_proj POwn (w_item w) a = true -> value_of (w_item w) u vp fs -> replaceable fs ->
  tree_usable true t mem -> unused n mem ->
  alias_project w (u_var u) uses "project_replace" true t n = Some (x, ops, n') -> ops = before ++ after ->
  exists mem', grows before mem mem'.
Proof. exact c77_replace_aborted_tree. Qed.
Print Assumptions C77_replace_aborted_tree.
Theorem C77_drop_aborted_tree : forall w a v uses t n mem x ops n' before after,
  program w a -> tree_usable true t mem -> unused n mem ->
  alias_destroy w v uses t n = Some (x, ops, n') -> ops = before ++ after -> exists mem', grows before mem mem'.
Proof. exact c77_drop_aborted_tree. Qed.
Print Assumptions C77_drop_aborted_tree.
Example C77_aborted_tree_example : exists x ops n' s,
  tree_usable true 0 (fun _ => mkTree [(0, [0])] [mkNode 0 (TReserved false) false]) /\
  alias_project (world_struct [3; 2] false) None (fun p => [(true, p)]) "project_replace" true 0 1 = Some (x, ops, n') /\
  Nat.ltb 20 (length ops) = true /\
  tree_steps (LField 0) (firstn 20 ops) (mkTree [(0, [0])] [mkNode 0 (TReserved false) false]) = Some s /\ length (tr_nodes s) = 6.
Proof.
  do 4 eexists. split; [intros l; discriminate|]. split; [vm_compute; reflexivity|]. split; [reflexivity|].
  split; [vm_compute; reflexivity|reflexivity].
Qed.
