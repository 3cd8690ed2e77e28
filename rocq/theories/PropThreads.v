(** C68: projections of one value used by several threads. *)
From Coq Require Import String Ascii List Bool Arith.
From Verif Require Import Base Syntax ModelArgs ModelUtils ModelDerive ModelRun ModelAlias.
From Verif Require Import SpecArgs SpecDerive SpecExpand SpecRun SpecAlias SpecThreads.
From Verif Require Import ProofsThreadsRun Examples ExamplesRun.
Import ListNotations.
Open Scope string_scope.
Open Scope list_scope.

(** Any number of threads that share [Pin<&T>], each of which calls [project_ref] and
    reads through what it gets as often as it likes: whatever the schedule, there is
    no undefined behaviour and no data race, all pointers that could be read through
    still can, and the owner can write again afterwards. *)
Theorem C68_shared : forall w a v t n ths n' ops mem,
  readable t PlSelf mem -> fresh n mem -> sharing w a v t n ths n' -> interleaved ths ops ->
  exists mem', runs ops mem mem' /\ fresh n' mem' /\ (forall r p, readable r p mem -> readable r p mem') /\
    (forall r l, access true r (mem' l) = access true r (mem l)) /\ race_free ths.
Proof. exact c68_shared. Qed.
Print Assumptions C68_shared.
(** Two threads in turn: both are inside [project_ref] at the same time. *)
Example C68_shared_example : exists th1 th2 ops,
  sharing (world_enum [] false) opts_enum (u_var value_a) 1 2 [th1; th2] 12 /\ interleaved [th1; th2] ops /\
  firstn 4 ops = [ORetag PkShared true PlSelf 1 2; ORetag PkShared true PlSelf 1 7; ORetag PkShared false PlSelf 2 3;
                  ORetag PkShared false PlSelf 7 8] /\
  last th1 (ORelease 0) = OUse false (PlField 0) 6 /\ last th2 (ORelease 0) = OUse false (PlField 1) 10 /\
  readable 1 PlSelf (fun _ => [mkEntry 1 SharedRO false; mkEntry 0 Unique false]) /\
  fresh 2 (fun _ => [mkEntry 1 SharedRO false; mkEntry 0 Unique false]).
Proof.
  do 3 eexists. split; [|split; [|split; [|split; [|split]]]].
  - eapply (T_thread _ _ _ _ _ (fun _ => [])).
    { eapply H_project_ref; [left; reflexivity|vm_compute; reflexivity|vm_compute; reflexivity|].
      eapply H_read with (p := PlField 0) (q := PlField 0); [cbn; auto 10|reflexivity|]. apply H_end. }
    eapply (T_thread _ _ _ _ _ (fun _ => [])); [|apply T_none].
    eapply H_project_ref; [left; reflexivity|vm_compute; reflexivity|vm_compute; reflexivity|].
    eapply H_read with (p := PlField 1) (q := PlField 1); [cbn; auto 10|reflexivity|]. apply H_end.
  - cbn [app].
    do 7 (eapply (I_step []); cbn [app]; eapply (I_step [_]); cbn [app]).
    eapply (I_step []); cbn [app]; eapply (I_step [_]); cbn [app]. apply I_done. intros th [<-|[<-|[]]]; reflexivity.
  - reflexivity.
  - reflexivity.
  - reflexivity.
  - split; [intros l _; reflexivity|]. intros l x [<-|[<-|[]]]; cbn; auto with arith.
Qed.

(** The references that [project] gives out can be sent to one thread each, and used
    for reading and writing there: whatever the schedule, there is no undefined
    behaviour and no data race, and the owner can write again afterwards. *)
Theorem C68_parts : forall w a u vp fs uses t n mem,
  program w a -> has_proj PMut (w_item w) a = true -> value_of (w_item w) u vp fs -> usable true t mem -> fresh n mem ->
  exists ptrs ops n' mem',
    alias_project w (u_var u) uses "project" true t n = Some (AvProj ptrs, ops, n') /\ length ptrs = length (fields_list fs) /\
    runs ops mem mem' /\
    forall ths os, Forall2 (fun x th => Forall (through true [x]) th) ptrs ths -> interleaved ths os ->
      runs os mem' mem' /\ race_free ths /\ forall l, access true t (mem' l) = access true t (mem l).
Proof. exact c68_parts. Qed.
Print Assumptions C68_parts.
Example C68_parts_example :
  program (world_struct [] false) opts_struct /\ has_proj PMut (w_item (world_struct [] false)) opts_struct = true /\
  value_of (w_item (world_struct [] false)) value_struct [] (FNamed fields_ex) /\
  usable true 0 (fun _ => [mkEntry 0 Unique false]) /\ fresh 1 (fun _ => [mkEntry 0 Unique false]) /\
  Forall2 (fun x th => Forall (through true [x]) th)
    [(Some (I "a"), AvPin true (PlField 0) 7); (Some (I "b"), AvPtr PkMut (PlField 1) 4)]
    [[OUse true (PlField 0) 7; OUse false (PlField 0) 7]; [OUse true (PlField 1) 4]] /\
  interleaved [[OUse true (PlField 0) 7; OUse false (PlField 0) 7]; [OUse true (PlField 1) 4]]
    [OUse true (PlField 0) 7; OUse true (PlField 1) 4; OUse false (PlField 0) 7].
Proof.
  split; [apply world_struct_program|]. split; [vm_compute; reflexivity|]. split; [apply value_struct_ok|].
  split; [intros l; discriminate|]. split; [intros l x [<-|[]]; apply le_n|]. split.
  - repeat constructor; do 4 eexists; (split; [left; reflexivity|split; [reflexivity|split; [|reflexivity]]]); auto.
  - eapply (I_step []); cbn [app]. eapply (I_step [_]); cbn [app]. eapply (I_step []); cbn [app].
    apply I_done. intros th [<-|[<-|[]]]; reflexivity.
Qed.
(** What is excluded: the same part in two threads, one of which writes. *)
Example C68_race_example : ~ race_free [[OUse true (PlField 0) 7]; [OUse false (PlField 0) 7]].
Proof.
  intros H. apply (H 0 1 _ _ (OUse true (PlField 0) 7) (OUse false (PlField 0) 7)) with (1 := Nat.neq_0_succ 0) (2 := eq_refl) (3 := eq_refl);
    [left; reflexivity|left; reflexivity|]. split; [left; reflexivity|]. exists (LField 0). split; reflexivity.
Qed.
