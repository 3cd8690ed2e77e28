(** C76: pointers from a structurally pinned field to itself, under the rules of Tree
    Borrows.  C69 says the same for those of Stacked Borrows. *)
From Coq Require Import String Ascii List Bool Arith.
From Verif Require Import Base Syntax ModelArgs ModelUtils ModelDerive ModelRun ModelAlias ModelTree.
From Verif Require Import SpecArgs SpecDerive SpecExpand SpecRun SpecAlias SpecSelfRef SpecTree SpecTreeSelf.
From Verif Require Import ProofsTree ProofsTreeMain ProofsTreeSelfRun Examples ExamplesRun.
Import ListNotations.
Open Scope string_scope.
Open Scope list_scope.

(** What [kin] is good for. *)
Theorem C76_use : forall ts s t b n, kin ts s -> In t ts -> unused_in n s ->
  exists s', tree_access b t s = Some s' /\ kin ts s' /\ unused_in n s'.
Proof. exact c76_use. Qed.
Print Assumptions C76_use.
(** The reference 3 was made from the pointers and dies with the write. *)
Example C76_use_example :
  let s := mkTree [(3, [3; 0]); (2, [0]); (1, [0])] [mkNode 3 TActive false; mkNode 0 (TReserved false) false] in
  kin [1; 2] s /\ unused_in 4 s /\
  tree_access true 1 s = Some (mkTree (tr_ptrs s) [mkNode 3 TDisabled false; mkNode 0 TActive false]).
Proof.
  cbn zeta. split; [|split; [|reflexivity]].
  - exists [0]. intros x [<-|[<-|[]]]; (split; [reflexivity|discriminate]).
  - split.
    + intros x p Hx. cbn in Hx. repeat (destruct Hx as [Hx|Hx]; [injection Hx as <- <-; repeat constructor|]); destruct Hx.
    + intros x Hx. cbn in Hx. repeat destruct Hx as [<-|Hx]; try destruct Hx; cbn; auto with arith.
Qed.

(** The value is not [Unpin]: by C28 that is the case if one of its pinned fields is not.
    [own] are the stored pointers that are used in the meantime, [kept] are all of them. *)
Theorem C76_project : forall w a u vp fs uses np own kept t n mem,
  program w a -> has_proj PMut (w_item w) a = true -> value_of (w_item w) u vp fs ->
  np PlSelf = true -> storable np own -> (forall l, incl (own l) (kept l)) -> (forall l, kin (t :: kept l) (mem l)) -> unused n mem ->
  exists ptrs ops n' mem1,
    alias_project w (u_var u) uses "project" true t n = Some (AvProj ptrs, ops, n') /\
    map (fun x => (fst x, forget (snd x))) ptrs = map (fun x => (fst x, Some (snd x))) (references true fs) /\
    grows (relaxed np ops) mem mem1 /\ n <= n' /\
    forall os, Forall (fun o => through true ptrs o \/ own_use own true o) os ->
      exists mem2, grows os mem1 mem2 /\ unused n' mem2 /\ (forall l, kin (t :: kept l) (mem2 l)) /\
        forall x k d, In x ptrs -> snd x = AvPin true (PlField k) d -> np (PlField k) = true ->
          kin (d :: t :: kept (LField k)) (mem2 (LField k)).
Proof. exact c76_project. Qed.
Print Assumptions C76_project.

Theorem C76_project_ref : forall w a u vp fs uses np own kept t n mem,
  program w a -> has_proj PRef (w_item w) a = true -> value_of (w_item w) u vp fs ->
  (forall l, incl (own l) (kept l)) -> (forall l, kin (t :: kept l) (mem l)) -> unused n mem ->
  exists ptrs ops n' mem1,
    alias_project w (u_var u) uses "project_ref" false t n = Some (AvProj ptrs, ops, n') /\
    map (fun x => (fst x, forget (snd x))) ptrs = map (fun x => (fst x, Some (snd x))) (references false fs) /\
    grows (relaxed np ops) mem mem1 /\ n <= n' /\ unused n' mem1 /\ (forall l, kin (t :: kept l) (mem1 l)) /\
    forall os, Forall (fun o => through false ptrs o \/ own_use own false o) os -> grows os mem1 mem1.
Proof. exact c76_project_ref. Qed.
Print Assumptions C76_project_ref.

Theorem C76_drop : forall w a v uses np own kept t n mem,
  program w a -> np PlSelf = true -> (forall l, incl (own l) (kept l)) -> (forall l, kin (t :: kept l) (mem l)) -> unused n mem ->
  exists ops n', alias_destroy w v uses t n = Some (AvOwned, ops, n') /\ n <= n' /\
    forall us all, Forall (own_use own true) us -> mixed (relaxed np ops) us all ->
      exists mem', grows all mem mem' /\ unused n' mem' /\ forall l, kin (t :: kept l) (mem' l).
Proof. exact c76_drop. Qed.
Print Assumptions C76_drop.

Theorem C76_life : forall w a v uses np own kept t n ops n' mem,
  program w a -> variant_of_item (w_item w) v -> np PlSelf = true -> storable np own ->
  (forall l, incl (own l) (kept l)) -> (forall l, kin (t :: kept l) (mem l)) -> unused n mem -> life w a v uses np own t n ops n' ->
  exists mem', grows ops mem mem' /\ unused n' mem' /\ forall l, kin (t :: kept l) (mem' l).
Proof. exact c76_life. Qed.
Print Assumptions C76_life.

(** The first field is pinned and not [Unpin]; it stores the pointer 2 to itself. *)
Example C76_example :
  let np p := match p with PlSelf | PlField 0 => true | _ => false end in
  let own l := match l with LField 0 => [2] | _ => [] end in
  let mem l := mkTree (match l with LField 0 => [(2, [0]); (1, [0]); (0, [0])] | _ => [(1, [0]); (0, [0])] end) [mkNode 0 TActive false] in
  program (world_enum [] true) opts_enum /\
  has_proj PMut (w_item (world_enum [] true)) opts_enum = true /\ has_proj PRef (w_item (world_enum [] true)) opts_enum = true /\
  (exists fs, value_of (w_item (world_enum [] true)) value_a [I "A"] fs) /\
  np PlSelf = true /\ storable np own /\ (forall l, incl (own l) (own l)) /\ (forall l, kin (1 :: own l) (mem l)) /\ unused 3 mem /\
  exists ops n', life (world_enum [] true) opts_enum (u_var value_a) (fun p => [(true, p)]) np own 1 3 ops n' /\ length ops = 27.
Proof.
  cbn zeta. split; [apply world_enum_program|]. split; [vm_compute; reflexivity|]. split; [vm_compute; reflexivity|].
  split; [destruct (value_a_ok [] true) as (fs & H & _); exists fs; exact H|].
  split; [reflexivity|]. split; [intros [|i] r H; [reflexivity|destruct H]|].
  split; [intros l; apply incl_refl|]. split; [|split].
  - intros l. exists [0]. destruct l as [|[|i]]; intros x Hx; cbn in Hx; repeat destruct Hx as [<-|Hx]; try destruct Hx; (split; [reflexivity|discriminate]).
  - intros l. split.
    + intros x p Hx. destruct l as [|[|i]]; cbn in Hx; repeat (destruct Hx as [Hx|Hx]; [injection Hx as <- <-; repeat constructor|]); destruct Hx.
    + intros x Hx. cbn in Hx. destruct Hx as [<-|[]]; cbn; auto with arith.
  - do 2 eexists. split.
    + eapply L_project with (us := [OUse true (PlField 0) 7; OUse true (PlField 0) 2; OUse false (PlField 0) 7; OUse true (PlField 1) 6]);
        [vm_compute; reflexivity|vm_compute; reflexivity| |].
      { apply Forall_cons; [left; exists (None, AvPin true (PlField 0) 7), (PlField 0), 7, true; split; [left; reflexivity|auto]|].
        apply Forall_cons; [right; exists true, 0, 2; split; [left; reflexivity|auto]|].
        apply Forall_cons; [left; exists (None, AvPin true (PlField 0) 7), (PlField 0), 7, false; split; [left; reflexivity|auto]|].
        apply Forall_cons; [left; exists (None, AvPtr PkMut (PlField 1) 6), (PlField 1), 6, true; split; [right; left; reflexivity|auto]|].
        apply Forall_nil. }
      eapply L_own; [exists true, 0, 2; split; [left; reflexivity|auto]|].
      eapply L_project_ref with (us := [OUse false (PlField 0) 2]); [vm_compute; reflexivity|vm_compute; reflexivity| |].
      { apply Forall_cons; [right; exists false, 0, 2; split; [left; reflexivity|auto]|apply Forall_nil]. }
      eapply L_drop with (us := [OUse true (PlField 0) 2]); [vm_compute; reflexivity|apply Forall_cons; [exists true, 0, 2; split; [left; reflexivity|auto]|apply Forall_nil]| |apply L_end].
      apply X_left. apply X_left. apply X_left. apply X_right. repeat apply X_left. apply X_end.
    + reflexivity.
Qed.
(** Without the exception for types that are not [Unpin], a use of the stored pointer
    would make the result of [project] unusable, under these rules too. *)
Example C76_example_unpin :
  let s0 := mkTree [(2, [0]); (1, [0]); (0, [0])] [mkNode 0 TActive false] in
  exists ptrs ops s, alias_project (world_struct [] true) None (fun _ => []) "project" true 1 3 = Some (AvProj ptrs, ops, 11) /\
  In (Some (I "a"), AvPin true (PlField 0) 9) ptrs /\
  tree_steps (LField 0) (relaxed (fun _ => false) ops) s0 = Some s /\
  tree_steps (LField 0) [OUse true (PlField 0) 2; OUse false (PlField 0) 9] s = None /\
  exists s' s2, tree_steps (LField 0) (relaxed (fun _ => true) ops) s0 = Some s' /\
  tree_steps (LField 0) [OUse true (PlField 0) 2; OUse false (PlField 0) 9] s' = Some s2.
Proof.
  cbn zeta. do 3 eexists. split; [vm_compute; reflexivity|]. split; [left; reflexivity|]. split; [vm_compute; reflexivity|]. split; [vm_compute; reflexivity|].
  do 2 eexists. split; vm_compute; reflexivity.
Qed.

(** Fields of fields, to any depth: whatever the program has done on the way, all
    pointers that it has had are still usable, and so are those it goes on to make. *)
Theorem C76_nested : forall kept t n mem ks c n' mem',
  (forall l, kin (t :: kept l) (mem l)) -> unused n mem -> self_within kept t n mem ks c n' mem' ->
  (forall l, kin (c :: ks l) (mem' l)) /\ unused n' mem' /\ (forall l, In t (c :: ks l)) /\
  forall w a v uses np own ops n2, program w a -> variant_of_item (w_item w) v -> np PlSelf = true -> storable np own ->
    (forall l, incl (own l) (ks l)) -> life w a v uses np own c n' ops n2 ->
    exists mem2, grows ops mem' mem2 /\ forall l, kin (c :: ks l) (mem2 l).
Proof. exact c76_within. Qed.
Print Assumptions C76_nested.
(** The pointer 9 to the first field of the struct, which stores the pointer 2 to itself,
    after a use of both. *)
Example C76_nested_example : exists ks n' mem',
  let kept := fun l => match l with LField 0 => [2] | _ => [] end in
  let mem := fun l => mkTree (match l with LField 0 => [(2, [0]); (1, [0]); (0, [0])] | _ => [(1, [0]); (0, [0])] end) [mkNode 0 TActive false] in
  self_within kept 1 3 mem ks 9 n' mem' /\ ks LRest = [1; 2] /\ (forall l, kin (1 :: kept l) (mem l)) /\ unused 3 mem.
Proof.
  set (kept := fun l => match l with LField 0 => [2] | _ => [] end).
  set (mem := fun l => mkTree (match l with LField 0 => [(2, [0]); (1, [0]); (0, [0])] | _ => [(1, [0]); (0, [0])] end) [mkNode 0 TActive false]).
  set (np := fun p => match p with PlSelf | PlField 0 => true | _ => false end).
  assert (Hst : storable np kept) by (intros [|i] r H; [reflexivity|destruct H]).
  assert (Hk : forall l, kin (1 :: kept l) (mem l)).
  { intros l. exists [0]. destruct l as [|[|i]]; intros x Hx; cbn in Hx; repeat destruct Hx as [<-|Hx]; try destruct Hx; (split; [reflexivity|discriminate]). }
  assert (Hu : unused 3 mem).
  { intros l. split.
    + intros x p Hx. destruct l as [|[|i]]; cbn in Hx; repeat (destruct Hx as [Hx|Hx]; [injection Hx as <- <-; repeat constructor|]); destruct Hx.
    + intros x Hx. cbn in Hx. destruct Hx as [<-|[]]; cbn; auto with arith. }
  destruct (c76_project (world_struct [] false) opts_struct value_struct [] (FNamed fields_ex) (fun _ => []) np kept kept 1 3 mem)
    as (p1 & o1 & n1 & m1 & E1 & _ & R1 & _ & K1).
  - apply world_struct_program.
  - vm_compute. reflexivity.
  - apply value_struct_ok.
  - reflexivity.
  - exact Hst.
  - intros l. apply incl_refl.
  - exact Hk.
  - exact Hu.
  - assert (Hx : In (Some (I "a"), AvPin true (PlField 0) 9) p1) by (vm_compute in E1; injection E1 as <- _ _; left; reflexivity).
    assert (Hus : Forall (fun o => through true p1 o \/ own_use kept true o) [OUse true (PlField 0) 2; OUse true (PlField 0) 9]).
    { constructor; [right; exists true, 0, 2; cbn; auto|constructor; [|constructor]].
      left. exists (Some (I "a"), AvPin true (PlField 0) 9), (PlField 0), 9, true. cbn. auto. }
    destruct (K1 _ Hus) as (m2 & R2 & _). exists (fun _ => 1 :: kept (LField 0)), n1, (fun _ => m2 (LField 0)).
    split; [|split; [reflexivity|split; [exact Hk|exact Hu]]].
    eapply SW_field with (x := (Some (I "a"), AvPin true (PlField 0) 9)) (w := world_struct [] false) (a := opts_struct) (np := np) (own := kept);
      [apply SW_start|apply world_struct_program|vm_compute; reflexivity| |reflexivity|exact Hst|intros l; apply incl_refl|exact E1|exact Hus| |exact Hx|reflexivity|reflexivity].
    + exists value_struct, [], (FNamed fields_ex). split; [apply value_struct_ok|reflexivity].
    + intros l. rewrite tree_steps_app, (R1 l). exact (R2 l).
Qed.
