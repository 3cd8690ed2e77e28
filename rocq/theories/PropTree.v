(** C72: the generated code also respects the other proposed aliasing rules. *)
From Coq Require Import String Ascii List Bool Arith.
From Verif Require Import Base Syntax ModelArgs ModelUtils ModelDerive ModelRun ModelAlias ModelTree.
From Verif Require Import SpecArgs SpecDerive SpecExpand SpecRun SpecAlias SpecTree.
From Verif Require Import ProofsTreeMain ProofsTreeSession Examples ExamplesRun.
Import ListNotations.
Open Scope string_scope.
Open Scope list_scope.

(** The rules differ from those of C63, which accept this. *)
Example C72_other_rules_example : exists s,
  let ops := [ORetag PkMut false PlSelf 0 1; ORetag PkRaw false PlSelf 1 2; OUse true PlSelf 2; OUse false PlSelf 0; OUse true PlSelf 2] in
  steps LRest ops [mkEntry 0 Unique false] = Some s /\ tree_steps LRest ops (mkTree [(0, [0])] [mkNode 0 TActive false]) = None.
Proof. eexists. split; vm_compute; reflexivity. Qed.

Theorem C72_project : forall w a u vp fs uses t n mem,
  program w a -> has_proj PMut (w_item w) a = true -> value_of (w_item w) u vp fs -> tree_usable true t mem -> unused n mem ->
  exists ptrs ops n' mem1,
    alias_project w (u_var u) uses "project" true t n = Some (AvProj ptrs, ops, n') /\
    map (fun x => (fst x, forget (snd x))) ptrs = map (fun x => (fst x, Some (snd x))) (references true fs) /\
    grows ops mem mem1 /\ n <= n' /\
    forall os, Forall (through true ptrs) os ->
      exists mem2, grows os mem1 mem2 /\ unused n' mem2 /\ given_back t n mem mem2.
Proof. exact c72_project. Qed.
Print Assumptions C72_project.
(** After the call and a write through one result, and after a write through the caller's pointer. *)
Example C72_project_example : exists ptrs ops,
  program (world_struct [] false) opts_struct /\ has_proj PMut (w_item (world_struct [] false)) opts_struct = true /\
  value_of (w_item (world_struct [] false)) value_struct [] (FNamed fields_ex) /\
  tree_usable true 0 (fun _ => mkTree [(0, [0])] [mkNode 0 TActive false]) /\ unused 1 (fun _ => mkTree [(0, [0])] [mkNode 0 TActive false]) /\
  alias_project (world_struct [] false) None (fun _ => []) "project" true 0 1 = Some (AvProj ptrs, ops, 9) /\
  In (Some (I "a"), AvPin true (PlField 0) 7) ptrs /\
  option_map tr_nodes (tree_steps (LField 0) (ops ++ [OUse true (PlField 0) 7]) (mkTree [(0, [0])] [mkNode 0 TActive false])) =
    Some [mkNode 7 TActive false; mkNode 3 TActive false; mkNode 2 TActive false; mkNode 1 TActive false; mkNode 0 TActive false] /\
  option_map tr_nodes (tree_steps (LField 0) (ops ++ [OUse true (PlField 0) 7; OUse true PlSelf 0]) (mkTree [(0, [0])] [mkNode 0 TActive false])) =
    Some [mkNode 7 TDisabled false; mkNode 3 TDisabled false; mkNode 2 TDisabled false; mkNode 1 TDisabled false; mkNode 0 TActive false].
Proof.
  do 2 eexists. split; [apply world_struct_program|]. split; [vm_compute; reflexivity|]. split; [apply value_struct_ok|].
  split; [intros l; discriminate|]. split.
  { intros l. split; [intros t p [H|[]]; injection H as <- <-; repeat constructor|intros x [<-|[]]; apply le_n]. }
  split; [vm_compute; reflexivity|]. split; [left; reflexivity|]. split; vm_compute; reflexivity.
Qed.

(** The other direction: the results stop being usable when the caller's pointer is
    written through. *)
Theorem C72_stale : forall w a u vp fs uses t n mem ptrs ops n' mem1 mem2 mem3 x p c b,
  program w a -> has_proj PMut (w_item w) a = true -> value_of (w_item w) u vp fs -> tree_usable true t mem -> unused n mem ->
  alias_project w (u_var u) uses "project" true t n = Some (AvProj ptrs, ops, n') -> grows ops mem mem1 ->
  grows [OUse true PlSelf t] mem1 mem2 ->
  In x ptrs -> target (snd x) = Some (p, c) -> ~ grows [OUse b p c] mem2 mem3.
Proof. exact c72_stale. Qed.
Print Assumptions C72_stale.
Example C72_stale_example : exists ptrs ops s,
  alias_project (world_struct [] false) None (fun _ => []) "project" true 0 1 = Some (AvProj ptrs, ops, 9) /\
  tree_steps (LField 1) (ops ++ [OUse true PlSelf 0]) (mkTree [(0, [0])] [mkNode 0 TActive false]) = Some s /\
  tree_step (LField 1) (OUse false (PlField 1) 4) s = None.
Proof. do 3 eexists. split; [vm_compute; reflexivity|]. split; vm_compute; reflexivity. Qed.

Theorem C72_project_ref : forall w a u vp fs uses t n mem,
  program w a -> has_proj PRef (w_item w) a = true -> value_of (w_item w) u vp fs -> tree_usable false t mem -> unused n mem ->
  exists ptrs ops n' mem1,
    alias_project w (u_var u) uses "project_ref" false t n = Some (AvProj ptrs, ops, n') /\
    map (fun x => (fst x, forget (snd x))) ptrs = map (fun x => (fst x, Some (snd x))) (references false fs) /\
    grows ops mem mem1 /\ n <= n' /\ unused n' mem1 /\
    (forall x p c, In x ptrs -> target (snd x) = Some (p, c) -> tree_readable c p mem1) /\
    tree_readable t PlSelf mem1 /\
    (tree_readable t PlSelf mem -> forall r p, tree_readable r p mem -> tree_readable r p mem1) /\
    (tree_usable true t mem -> given_back t n mem mem1).
Proof. exact c72_project_ref. Qed.
Print Assumptions C72_project_ref.
Example C72_project_ref_example : exists ptrs ops,
  let mem : forest := fun _ => mkTree [(1, [1; 0]); (0, [0])] [mkNode 1 TFrozen false; mkNode 0 TActive false] in
  program (world_enum [] false) opts_enum /\ has_proj PRef (w_item (world_enum [] false)) opts_enum = true /\
  (exists fs, value_of (w_item (world_enum [] false)) value_a [I "A"] fs) /\
  tree_usable false 1 mem /\ tree_readable 1 PlSelf mem /\ unused 2 mem /\
  alias_project (world_enum [] false) (u_var value_a) (fun _ => []) "project_ref" false 1 2 = Some (AvProj ptrs, ops, 7) /\
  In (None, AvPin false (PlField 0) 6) ptrs /\
  option_map tr_nodes (tree_steps (LField 0) ops (mem (LField 0))) =
    Some [mkNode 6 TFrozen false; mkNode 4 TFrozen false; mkNode 3 TFrozen false; mkNode 2 TFrozen false; mkNode 1 TFrozen false; mkNode 0 TActive false].
Proof.
  do 2 eexists. cbn zeta. split; [apply world_enum_program|]. split; [vm_compute; reflexivity|].
  split; [destruct (value_a_ok [] false) as (fs & H & _); exists fs; exact H|].
  split; [intros l; discriminate|]. split; [intros l _; reflexivity|]. split.
  { intros l. split; [intros t p [H|[H|[]]]; injection H as <- <-; repeat constructor|intros x [<-|[<-|[]]]; cbn; auto]. }
  split; [vm_compute; reflexivity|]. split; [left; reflexivity|]. vm_compute. reflexivity.
Qed.

Theorem C72_project_replace : forall w a u vp fs uses t n mem,
  program w a -> has_proj POwn (w_item w) a = true -> value_of (w_item w) u vp fs -> replaceable fs ->
  tree_usable true t mem -> unused n mem ->
  exists ops n' mem',
    alias_project w (u_var u) uses "project_replace" true t n =
      Some (AvProj (map (fun f => (f_ident f, AvOwned)) (fields_list fs)), ops, n') /\
    grows ops mem mem' /\ n <= n' /\ unused n' mem' /\ given_back t n mem mem'.
Proof. exact c72_project_replace. Qed.
Print Assumptions C72_project_replace.
(** The raw pointer 3 is written through after the pointers made from it. *)
Example C72_project_replace_example : exists r ops n',
  program (world_own []) opts_own /\ has_proj POwn (w_item (world_own [])) opts_own = true /\
  (exists fs, value_of (w_item (world_own [])) value_a [I "A"] fs /\ replaceable fs) /\
  alias_project (world_own []) (u_var value_a) (fun p => [(true, p)]) "project_replace" true 0 1 = Some (r, ops, n') /\
  In (OUse true PlSelf 3) ops /\
  option_map tr_nodes (tree_steps (LField 0) ops (mkTree [(0, [0])] [mkNode 0 TActive false])) =
    Some [mkNode 9 TDisabled false; mkNode 5 TDisabled false; mkNode 4 TDisabled false; mkNode 2 TActive false; mkNode 1 TActive false; mkNode 0 TActive false].
Proof.
  do 3 eexists. split; [apply world_own_program|]. split; [vm_compute; reflexivity|].
  split; [destruct (value_a_own []) as (fs & H1 & H2 & _); exists fs; auto|]. split; [vm_compute; reflexivity|].
  split; [cbn; auto 20|vm_compute; reflexivity].
Qed.

Theorem C72_drop : forall w a v uses t n mem,
  program w a -> tree_usable true t mem -> unused n mem ->
  exists ops n' mem',
    alias_destroy w v uses t n = Some (AvOwned, ops, n') /\
    grows ops mem mem' /\ n <= n' /\ unused n' mem' /\ given_back t n mem mem'.
Proof. exact c72_drop. Qed.
Print Assumptions C72_drop.
Example C72_drop_example : exists ops,
  program (world_enum [] true) opts_enum /\
  alias_destroy (world_enum [] true) (u_var value_a) (fun p => [(false, p); (true, PlField 1)]) 0 1 = Some (AvOwned, ops, 4) /\
  option_map tr_nodes (tree_steps (LField 1) ops (mkTree [(0, [0])] [mkNode 0 (TReserved false) false])) =
    Some [mkNode 3 TActive false; mkNode 2 TActive false; mkNode 1 TActive false; mkNode 0 TActive false].
Proof. eexists. split; [apply world_enum_program|]. split; vm_compute; reflexivity. Qed.

Theorem C72_shared_session : forall w a uses v t n ops n' mem,
  program w a -> variant_of_item (w_item w) v ->
  tree_readable t PlSelf mem -> unused n mem -> shared_session w a uses v [(PlSelf, t)] n ops n' ->
  exists mem', grows ops mem mem' /\ unused n' mem' /\ forall r p, tree_readable r p mem -> tree_readable r p mem'.
Proof. exact c72_shared_session. Qed.
Print Assumptions C72_shared_session.
(** Two calls of [project_ref], and reads of the results of the first after the second. *)
Example C72_shared_session_example : exists ops n',
  let mem : forest := fun _ => mkTree [(1, [1; 0]); (0, [0])] [mkNode 1 TFrozen false; mkNode 0 TActive false] in
  shared_session (world_enum [] false) opts_enum (fun _ => []) (u_var value_a) [(PlSelf, 1)] 2 ops n' /\
  In (OUse false (PlField 0) 6) ops /\ variant_of_item (w_item (world_enum [] false)) (u_var value_a) /\
  tree_readable 1 PlSelf mem /\ tree_readable 0 PlSelf mem /\ unused 2 mem.
Proof.
  do 2 eexists. cbn zeta. split; [|split; [|split; [|split; [|split]]]].
  - eapply H_project_ref; [left; reflexivity|vm_compute; reflexivity|vm_compute; reflexivity|].
    eapply H_project_ref; [cbn; auto|vm_compute; reflexivity|vm_compute; reflexivity|].
    eapply H_read with (p := PlField 0) (q := PlField 0) (t := 6); [cbn; auto 10|reflexivity|].
    eapply H_read with (p := PlSelf) (q := PlSelf) (t := 1); [cbn; auto 10|reflexivity|]. apply H_end.
  - apply in_or_app. right. apply in_or_app. right. left. reflexivity.
  - destruct (value_a_ok [] false) as (fs & H & _). exists value_a, [I "A"], fs. split; [exact H|reflexivity].
  - intros l _. reflexivity.
  - intros l _. reflexivity.
  - intros l. split; [intros t p [H|[H|[]]]; injection H as <- <-; repeat constructor|intros x [<-|[<-|[]]]; cbn; auto].
Qed.

Theorem C72_session : forall w a uses t v n ops v' n' mem,
  program w a -> (forall fs, In fs (fields_of (w_item w)) -> replaceable fs) -> variant_of_item (w_item w) v ->
  tree_usable true t mem -> unused n mem -> session w a uses t v n ops v' n' ->
  exists mem', grows ops mem mem' /\ unused n' mem' /\ given_back t n mem mem'.
Proof. exact c72_session. Qed.
Print Assumptions C72_session.
(** [as_mut] and a projection of what it lends, then a direct use. *)
Example C72_session_example : exists ops n',
  session (world_struct [] false) opts_struct (fun p => [(true, p)]) 0 None 1
    (ORetag PkMut false PlSelf 0 1 :: (ops ++ [OUse true (PlField 1) 5; OUse false (PlField 3) 7] ++ []) ++ [OUse true PlSelf 0]) None n' /\
  length ops = 9 /\ variant_of_item (w_item (world_struct [] false)) None /\
  (forall fs, In fs (fields_of (w_item (world_struct [] false))) -> replaceable fs).
Proof.
  do 2 eexists. split; [|split; [|split]].
  - eapply S_as_mut.
    + eapply S_project; [vm_compute; reflexivity|vm_compute; reflexivity| |apply S_end].
      constructor; [exists (Some (I "b"), AvPtr PkMut (PlField 1) 5), (PlField 1), 5, true|constructor; [|constructor]].
      * cbn. auto 10.
      * exists (Some (I "d"), AvPtr PkMut (PlField 3) 7), (PlField 3), 7, false. cbn. auto 10.
    + apply S_use. apply S_end.
  - reflexivity.
  - exists value_struct, [], (FNamed fields_ex). split; [apply value_struct_ok|reflexivity].
  - intros fs [<-|[]]. apply struct_replaceable.
Qed.

(** Fields that are projected in their turn, to any depth. *)
Theorem C72_nested : forall t n mem c n' mem',
  tree_usable true t mem -> unused n mem -> tree_within t n mem c n' mem' ->
  tree_usable true c mem' /\ unused n' mem' /\ forall l, exists l0, same_write t n (mem l0) (mem' l).
Proof. exact c72_nested. Qed.
Print Assumptions C72_nested.
(** The pointer to a field of the struct, after a use of the pointer it was made from. *)
Example C72_nested_example : exists n' mem',
  tree_within 0 1 (fun _ => mkTree [(0, [0])] [mkNode 0 TActive false]) 7 n' mem' /\
  tree_path 7 (tr_ptrs (mem' LRest)) = Some [7; 3; 2; 1; 0].
Proof.
  set (mem := fun _ : loc => mkTree [(0, [0])] [mkNode 0 TActive false]).
  destruct (c72_project (world_struct [] false) opts_struct value_struct [] (FNamed fields_ex) (fun _ => []) 0 1 mem)
    as (p1 & o1 & n1 & m1 & E1 & _ & R1 & _).
  - apply world_struct_program.
  - vm_compute. reflexivity.
  - apply value_struct_ok.
  - intros l. discriminate.
  - intros l. split; [intros t p [H|[]]; injection H as <- <-; repeat constructor|intros x [<-|[]]; apply le_n].
  - exists n1, (fun _ => m1 (LField 0)). split.
    + eapply TW_field with (x := (Some (I "a"), AvPin true (PlField 0) 7)) (w := world_struct [] false) (a := opts_struct);
        [apply TW_start|apply world_struct_program|vm_compute; reflexivity| |exact E1|exact R1| |reflexivity].
      * exists value_struct, [], (FNamed fields_ex). split; [apply value_struct_ok|reflexivity].
      * vm_compute in E1. injection E1 as <- _ _. left. reflexivity.
    + pose proof (R1 (LField 0)) as S1. vm_compute in E1. injection E1 as _ <- _. vm_compute in S1. injection S1 as S1. rewrite <- S1. reflexivity.
Qed.
