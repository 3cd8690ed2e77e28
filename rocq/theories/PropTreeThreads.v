(** C75: several threads, under the rules of Tree Borrows.  C68 says the same for
    those of Stacked Borrows. *)
From Coq Require Import String Ascii List Bool Arith.
From Verif Require Import Base Syntax ModelArgs ModelDerive ModelRun ModelAlias ModelTree.
From Verif Require Import SpecArgs SpecDerive SpecExpand SpecRun SpecAlias SpecThreads SpecTree.
From Verif Require Import ProofsTreeThreads Examples ExamplesRun.
Import ListNotations.
Open Scope string_scope.
Open Scope list_scope.

(** Any number of threads that share [Pin<&T>], each of which calls [project_ref] and
    reads through what it gets as often as it likes: whatever the schedule, there is
    no undefined behaviour and no data race, all pointers that could be read through
    still can, and whoever could write before can do so afterwards with the same
    effect. *)
Theorem C75_shared : forall w a v t n ths n' ops mem,
  tree_readable t PlSelf mem -> unused n mem -> sharing w a v t n ths n' -> interleaved ths ops ->
  exists mem', grows ops mem mem' /\ unused n' mem' /\ (forall r p, tree_readable r p mem -> tree_readable r p mem') /\
    (forall r, tree_usable true r mem -> given_back r n mem mem') /\ race_free ths.
Proof. exact c75_shared. Qed.
Print Assumptions C75_shared.
(** Two threads in turn: both are inside [project_ref] at the same time.  The owner
    has the tag 0. *)
Example C75_shared_example : exists th1 th2 ops,
  let mem : forest := fun _ => mkTree [(1, [1; 0]); (0, [0])] [mkNode 1 TFrozen false; mkNode 0 TActive false] in
  sharing (world_enum [] false) opts_enum (u_var value_a) 1 2 [th1; th2] 12 /\ interleaved [th1; th2] ops /\
  firstn 4 ops = [ORetag PkShared true PlSelf 1 2; ORetag PkShared true PlSelf 1 7; ORetag PkShared false PlSelf 2 3;
                  ORetag PkShared false PlSelf 7 8] /\
  last th1 (ORelease 0) = OUse false (PlField 0) 6 /\ last th2 (ORelease 0) = OUse false (PlField 1) 10 /\
  tree_readable 1 PlSelf mem /\ tree_usable true 0 mem /\ unused 2 mem.
Proof.
  do 3 eexists. cbn zeta. split; [|split; [|split; [|split; [|split; [|split; [|split]]]]]].
  - eapply (T_thread _ _ _ _ _ (fun _ => [])).
    { eapply H_project_ref; [left; reflexivity|vm_compute; reflexivity|vm_compute; reflexivity|].
      eapply H_read with (p := PlField 0) (q := PlField 0); [cbn; auto 10|reflexivity|]. apply H_end. }
    eapply (T_thread _ _ _ _ _ (fun _ => [])); [|apply T_none].
    eapply H_project_ref; [left; reflexivity|vm_compute; reflexivity|vm_compute; reflexivity|].
    eapply H_read with (p := PlField 1) (q := PlField 1); [cbn; auto 10|reflexivity|]. apply H_end.
  - cbn [app].
    do 7 (eapply (I_step []); cbn [app]; eapply (I_step [_]); cbn [app]).
    eapply (I_step []); cbn [app]; eapply (I_step [_]); cbn [app]. apply I_done. intros th [<-|[<-|[]]]; reflexivity.
  - reflexivity.
  - reflexivity.
  - reflexivity.
  - intros l _. reflexivity.
  - intros l. discriminate.
  - intros l. split; [intros t p [H|[H|[]]]; injection H as <- <-; repeat constructor|intros x [<-|[<-|[]]]; cbn; auto].
Qed.

(** The references that [project] gives out can be sent to one thread each, and used
    for reading and writing there: whatever the schedule, there is no undefined
    behaviour and no data race, and the owner can write again afterwards. *)
Theorem C75_parts : forall w a u vp fs uses t n mem,
  program w a -> has_proj PMut (w_item w) a = true -> value_of (w_item w) u vp fs -> tree_usable true t mem -> unused n mem ->
  exists ptrs ops n' mem1,
    alias_project w (u_var u) uses "project" true t n = Some (AvProj ptrs, ops, n') /\ length ptrs = length (fields_list fs) /\
    grows ops mem mem1 /\
    forall ths os, Forall2 (fun x th => Forall (through true [x]) th) ptrs ths -> interleaved ths os ->
      race_free ths /\ exists mem2, grows os mem1 mem2 /\ unused n' mem2 /\ given_back t n mem mem2.
Proof. exact c75_parts. Qed.
Print Assumptions C75_parts.
Example C75_parts_example : exists ptrs ops,
  let mem : forest := fun _ => mkTree [(0, [0])] [mkNode 0 TActive false] in
  program (world_struct [] false) opts_struct /\ has_proj PMut (w_item (world_struct [] false)) opts_struct = true /\
  value_of (w_item (world_struct [] false)) value_struct [] (FNamed fields_ex) /\
  tree_usable true 0 mem /\ unused 1 mem /\
  alias_project (world_struct [] false) None (fun _ => []) "project" true 0 1 = Some (AvProj ptrs, ops, 9) /\
  exists ths os, Forall2 (fun x th => Forall (through true [x]) th) ptrs ths /\ interleaved ths os /\
    os = [OUse true (PlField 0) 7; OUse true (PlField 1) 4; OUse false (PlField 0) 7].
Proof.
  do 2 eexists. cbn zeta. split; [apply world_struct_program|]. split; [vm_compute; reflexivity|]. split; [apply value_struct_ok|].
  split; [intros l; discriminate|]. split.
  { intros l. split; [intros t p [H|[]]; injection H as <- <-; repeat constructor|intros x [<-|[]]; cbn; auto]. }
  split; [vm_compute; reflexivity|].
  exists [[OUse true (PlField 0) 7; OUse false (PlField 0) 7]; [OUse true (PlField 1) 4]; []; []],
    [OUse true (PlField 0) 7; OUse true (PlField 1) 4; OUse false (PlField 0) 7]. split; [|split; [|reflexivity]].
  - repeat constructor; do 4 eexists; (split; [left; reflexivity|split; [reflexivity|split; [|reflexivity]]]); auto.
  - eapply (I_step []); cbn [app]. eapply (I_step [_]); cbn [app]. eapply (I_step []); cbn [app].
    apply I_done. intros th [<-|[<-|[<-|[<-|[]]]]]; reflexivity.
Qed.
