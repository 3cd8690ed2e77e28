(** C63: the generated code respects the aliasing rules. *)
From Coq Require Import String Ascii List Bool Arith.
From Verif Require Import Base Syntax ModelArgs ModelUtils ModelDerive ModelRun ModelAlias.
From Verif Require Import SpecArgs SpecDerive SpecExpand SpecRun SpecAlias.
From Verif Require Import ProofsAliasMain ProofsAliasNested Examples ExamplesRun.
Import ListNotations.
Open Scope string_scope.
Open Scope list_scope.

Theorem C63_project : forall w a u vp fs uses t n mem,
  program w a -> has_proj PMut (w_item w) a = true -> value_of (w_item w) u vp fs -> usable true t mem -> fresh n mem ->
  exists ptrs ops n' mem',
    alias_project w (u_var u) uses "project" true t n = Some (AvProj ptrs, ops, n') /\
    map (fun x => (fst x, forget (snd x))) ptrs = map (fun x => (fst x, Some (snd x))) (references true fs) /\
    runs ops mem mem' /\ n <= n' /\ fresh n' mem' /\
    (forall os, Forall (through true ptrs) os -> runs os mem' mem') /\
    (forall l, access true t (mem' l) = access true t (mem l)).
Proof. exact c63_project. Qed.
Print Assumptions C63_project.
Example C63_project_example :
  program (world_struct [] false) opts_struct /\ has_proj PMut (w_item (world_struct [] false)) opts_struct = true /\
  value_of (w_item (world_struct [] false)) value_struct [] (FNamed fields_ex) /\
  usable true 0 (fun _ => [mkEntry 0 Unique false]) /\ fresh 1 (fun _ => [mkEntry 0 Unique false]) /\
  alias_project (world_struct [] false) None (fun _ => []) "project" true 0 1 =
  Some (AvProj [(Some (I "a"), AvPin true (PlField 0) 7); (Some (I "b"), AvPtr PkMut (PlField 1) 4);
                (Some (I "c"), AvPin true (PlField 2) 8); (Some (I "d"), AvPtr PkMut (PlField 3) 6)],
        [ORetag PkMut true PlSelf 0 1; ORetag PkMut false PlSelf 1 2; ORetag PkMut false (PlField 0) 2 3;
         ORetag PkMut false (PlField 1) 2 4; ORetag PkMut false (PlField 2) 2 5; ORetag PkMut false (PlField 3) 2 6;
         ORetag PkMut false (PlField 0) 3 7; ORetag PkMut false (PlField 2) 5 8; ORelease 1], 9).
Proof.
  split; [apply world_struct_program|]. split; [vm_compute; reflexivity|]. split; [apply value_struct_ok|].
  split; [intros l; discriminate|]. split; [intros l x [<-|[]]; apply le_n|]. vm_compute. reflexivity.
Qed.

(** The other direction: the results stop being usable when the caller's pointer is
    written through, so that their lifetime has to end before that. *)
Theorem C63_stale : forall w a u vp fs uses t n mem ptrs ops n' mem' m2 m3 x p c b,
  program w a -> has_proj PMut (w_item w) a = true -> value_of (w_item w) u vp fs -> usable true t mem -> fresh n mem ->
  alias_project w (u_var u) uses "project" true t n = Some (AvProj ptrs, ops, n') -> runs ops mem mem' ->
  runs [OUse true PlSelf t] mem' m2 ->
  In x ptrs -> target (snd x) = Some (p, c) -> ~ runs [OUse b p c] m2 m3.
Proof. exact c63_stale. Qed.
Print Assumptions C63_stale.
Example C63_stale_example : exists os ops2 s,
  alias_project (world_struct [] false) None (fun _ => []) "project" true 0 1 = Some (AvProj os, ops2, 9) /\
  steps (LField 1) ops2 [mkEntry 0 Unique false] = Some s /\
  step (LField 1) (OUse true PlSelf 0) s = Some [mkEntry 0 Unique false] /\
  step (LField 1) (OUse false (PlField 1) 4) [mkEntry 0 Unique false] = None.
Proof. do 3 eexists. split; [vm_compute; reflexivity|]. split; [vm_compute; reflexivity|]. split; vm_compute; reflexivity. Qed.

Theorem C63_project_ref : forall w a u vp fs uses t n mem,
  program w a -> has_proj PRef (w_item w) a = true -> value_of (w_item w) u vp fs -> usable false t mem -> fresh n mem ->
  exists ptrs ops n' mem',
    alias_project w (u_var u) uses "project_ref" false t n = Some (AvProj ptrs, ops, n') /\
    map (fun x => (fst x, forget (snd x))) ptrs = map (fun x => (fst x, Some (snd x))) (references false fs) /\
    runs ops mem mem' /\ n <= n' /\ fresh n' mem' /\
    (forall x p c, In x ptrs -> target (snd x) = Some (p, c) -> readable c p mem') /\
    readable t PlSelf mem' /\
    (readable t PlSelf mem -> forall r p, readable r p mem -> readable r p mem') /\
    (usable true t mem -> forall l, access true t (mem' l) = access true t (mem l)).
Proof. exact c63_project_ref. Qed.
Print Assumptions C63_project_ref.
Example C63_project_ref_example :
  program (world_enum [] false) opts_enum /\ has_proj PRef (w_item (world_enum [] false)) opts_enum = true /\
  (exists fs, value_of (w_item (world_enum [] false)) value_a [I "A"] fs) /\
  usable false 1 (fun _ => [mkEntry 1 SharedRO false; mkEntry 0 Unique false]) /\
  readable 1 PlSelf (fun _ => [mkEntry 1 SharedRO false; mkEntry 0 Unique false]) /\
  fresh 2 (fun _ => [mkEntry 1 SharedRO false; mkEntry 0 Unique false]) /\
  alias_project (world_enum [] false) (u_var value_a) (fun _ => []) "project_ref" false 1 2 =
  Some (AvProj [(None, AvPin false (PlField 0) 6); (None, AvPtr PkShared (PlField 1) 5)],
        [ORetag PkShared true PlSelf 1 2; ORetag PkShared false PlSelf 2 3; OUse false PlSelf 3;
         ORetag PkShared false (PlField 0) 3 4; ORetag PkShared false (PlField 1) 3 5;
         ORetag PkShared false (PlField 0) 4 6; ORelease 2], 7).
Proof.
  split; [apply world_enum_program|]. split; [vm_compute; reflexivity|].
  split; [destruct (value_a_ok [] false) as (fs & H & _); exists fs; exact H|].
  split; [intros l; discriminate|]. split; [intros l _; reflexivity|].
  split; [intros l x [<-|[<-|[]]]; cbn; auto with arith|]. vm_compute. reflexivity.
Qed.

Theorem C63_project_replace : forall w a u vp fs uses t n mem,
  program w a -> has_proj POwn (w_item w) a = true -> value_of (w_item w) u vp fs -> replaceable fs ->
  usable true t mem -> fresh n mem ->
  exists ops n' mem',
    alias_project w (u_var u) uses "project_replace" true t n =
      Some (AvProj (map (fun f => (f_ident f, AvOwned)) (fields_list fs)), ops, n') /\
    runs ops mem mem' /\ n <= n' /\ fresh n' mem' /\
    (forall l, access true t (mem' l) = access true t (mem l)).
Proof. exact c63_project_replace. Qed.
Print Assumptions C63_project_replace.
Example C63_project_replace_example :
  program (world_own []) opts_own /\ has_proj POwn (w_item (world_own [])) opts_own = true /\
  (exists fs, value_of (w_item (world_own [])) value_a [I "A"] fs /\ replaceable fs) /\
  exists r n', alias_project (world_own []) (u_var value_a) (fun p => [(true, p)]) "project_replace" true 0 1 =
  Some (r, [ORetag PkMut true PlSelf 0 1; ORetag PkMut false PlSelf 1 2; ORetag PkRaw false PlSelf 2 3;
            ORetag PkMut false PlSelf 3 4; OUse false PlSelf 4; ORetag PkMut false (PlField 0) 4 5;
            ORetag PkMut false (PlField 1) 4 6; ORetag PkShared false (PlField 1) 6 7; OUse false (PlField 1) 7;
            ORetag PkRaw false (PlField 0) 5 8; ORetag PkMut true (PlField 0) 8 9; OUse true (PlField 0) 9; ORelease 9;
            OUse true PlSelf 3; ORelease 1], n').
Proof.
  split; [apply world_own_program|]. split; [vm_compute; reflexivity|].
  split; [destruct (value_a_own []) as (fs & H1 & H2 & _); exists fs; auto|]. do 2 eexists. vm_compute. reflexivity.
Qed.

Theorem C63_drop : forall w a v uses t n mem,
  program w a -> usable true t mem -> fresh n mem ->
  exists ops n' mem',
    alias_destroy w v uses t n = Some (AvOwned, ops, n') /\
    runs ops mem mem' /\ n <= n' /\ fresh n' mem' /\
    (forall l, access true t (mem' l) = access true t (mem l)).
Proof. exact c63_drop. Qed.
Print Assumptions C63_drop.
Example C63_drop_example :
  program (world_enum [] true) opts_enum /\
  alias_destroy (world_enum [] true) (u_var value_a) (fun p => [(false, p); (true, PlField 1)]) 0 1 =
  Some (AvOwned, [ORetag PkMut true PlSelf 0 1; ORetag PkMut false PlSelf 1 2; ORetag PkMut true PlSelf 2 3;
                  OUse false PlSelf 3; OUse true (PlField 1) 3; ORelease 3; ORelease 1], 4).
Proof. split; [apply world_enum_program|vm_compute; reflexivity]. Qed.

Theorem C63_shared_session : forall w a uses v t n ops n' mem,
  program w a -> variant_of_item (w_item w) v ->
  readable t PlSelf mem -> fresh n mem -> shared_session w a uses v [(PlSelf, t)] n ops n' ->
  exists mem', runs ops mem mem' /\ fresh n' mem' /\ forall r p, readable r p mem -> readable r p mem'.
Proof. exact c63_shared_session. Qed.
Print Assumptions C63_shared_session.
(** Two calls of [project_ref], and reads of the results of the first after the second. *)
Example C63_shared_session_example : exists ops1 ops2 n',
  shared_session (world_enum [] false) opts_enum (fun _ => []) (u_var value_a) [(PlSelf, 1)] 2
    (ops1 ++ ops2 ++ [OUse false (PlField 0) 6; OUse false (PlField 1) 5; OUse false PlSelf 1]) n' /\
  length ops1 = 7 /\ length ops2 = 7 /\ variant_of_item (w_item (world_enum [] false)) (u_var value_a).
Proof.
  do 3 eexists. split; [|split; [|split]].
  - eapply H_project_ref; [left; reflexivity|vm_compute; reflexivity|vm_compute; reflexivity|].
    eapply H_project_ref; [cbn; auto|vm_compute; reflexivity|vm_compute; reflexivity|].
    eapply H_read with (p := PlField 0); [cbn; auto 10|reflexivity|]. eapply H_read with (p := PlField 1); [cbn; auto 10|reflexivity|].
    eapply H_read with (p := PlSelf); [cbn; auto 10|reflexivity|]. apply H_end.
  - reflexivity.
  - reflexivity.
  - destruct (value_a_ok [] false) as (fs & H & _). exists value_a, [I "A"], fs. split; [exact H|reflexivity].
Qed.

Theorem C63_session : forall w a uses t v n ops v' n' mem,
  program w a -> (forall fs, In fs (fields_of (w_item w)) -> replaceable fs) -> variant_of_item (w_item w) v ->
  usable true t mem -> fresh n mem -> session w a uses t v n ops v' n' ->
  exists mem', runs ops mem mem' /\ fresh n' mem' /\ forall l, access true t (mem' l) = access true t (mem l).
Proof. exact c63_session. Qed.
Print Assumptions C63_session.
(** [as_mut] and a projection of what it lends, then a direct use. *)
Example C63_session_example : exists ops n',
  session (world_struct [] false) opts_struct (fun p => [(true, p)]) 0 None 1
    (ORetag PkMut false PlSelf 0 1 :: (ops ++ [OUse true (PlField 1) 5; OUse false (PlField 3) 7] ++ []) ++ [OUse true PlSelf 0]) None n' /\
  length ops = 9 /\ variant_of_item (w_item (world_struct [] false)) None /\
  (forall fs, In fs (fields_of (w_item (world_struct [] false))) -> replaceable fs).
Proof.
  do 2 eexists. split; [|split; [|split]].
  - eapply S_as_mut.
    + eapply S_project; [vm_compute; reflexivity|vm_compute; reflexivity| |apply S_end].
      constructor; [exists (Some (I "b"), AvPtr PkMut (PlField 1) 5), (PlField 1), 5, true|constructor; [|constructor]].
      * cbn. auto 10.
      * exists (Some (I "d"), AvPtr PkMut (PlField 3) 7), (PlField 3), 7, false. cbn. auto 10.
    + apply S_use. apply S_end.
  - reflexivity.
  - exists value_struct, [], (FNamed fields_ex). split; [apply value_struct_ok|reflexivity].
  - intros fs [<-|[]]. apply struct_replaceable.
Qed.

(** Fields that are projected in their turn, to any depth: the pointer that has been
    reached can be used, so that what can be done with it (C63_session) can be done
    there too, and the first pointer still gives the access it gave in the beginning. *)
Theorem C63_nested : forall t n mem c n' mem',
  usable true t mem -> fresh n mem -> within t n mem c n' mem' ->
  usable true c mem' /\ fresh n' mem' /\ forall l, exists l0, access true t (mem' l) = access true t (mem l0).
Proof. exact c63_nested. Qed.
Print Assumptions C63_nested.
(** A field of the struct whose type is the enum: the pointer to the field of the field. *)
Example C63_nested_example : exists n' mem',
  within 0 1 (fun _ => [mkEntry 0 Unique false]) 13 n' mem' /\
  map en_tag (mem' (LField 1)) = [13; 11; 10; 9; 7; 3; 2; 1; 0].
Proof.
  destruct (c63_project (world_struct [] false) opts_struct value_struct [] (FNamed fields_ex) (fun _ => []) 0 1
              (fun _ => [mkEntry 0 Unique false])) as (p1 & o1 & n1 & m1 & E1 & _ & R1 & _ & F1 & _).
  - apply world_struct_program.
  - vm_compute. reflexivity.
  - apply value_struct_ok.
  - intros l. discriminate.
  - intros l x [<-|[]]. apply le_n.
  - assert (W1 : within 0 1 (fun _ => [mkEntry 0 Unique false]) 7 n1 (fun _ => m1 (LField 0))).
    { eapply W_field with (x := (Some (I "a"), AvPin true (PlField 0) 7)) (w := world_struct [] false) (a := opts_struct);
        [apply W_start|apply world_struct_program|vm_compute; reflexivity| |exact E1|exact R1| |reflexivity].
      - exists value_struct, [], (FNamed fields_ex). split; [apply value_struct_ok|reflexivity].
      - vm_compute in E1. injection E1 as <- _ _. left. reflexivity. }
    assert (U1 : usable true 7 (fun _ => m1 (LField 0))).
    { eapply c63_nested; [| |exact W1]; [intros l; discriminate|intros l x [<-|[]]; apply le_n]. }
    destruct (value_a_ok [] false) as (fs & Hv & _).
    destruct (c63_project (world_enum [] false) opts_enum value_a [I "A"] fs (fun _ => []) 7 n1 (fun _ => m1 (LField 0)))
      as (p2 & o2 & n2 & m2 & E2 & _ & R2 & _ & F2 & _).
    + apply world_enum_program.
    + vm_compute. reflexivity.
    + exact Hv.
    + exact U1.
    + intros l. apply F1.
    + exists n2, (fun _ => m2 (LField 0)). split.
      * eapply W_field with (x := (None, AvPin true (PlField 0) 13)) (w := world_enum [] false) (a := opts_enum);
          [exact W1|apply world_enum_program|vm_compute; reflexivity| |exact E2|exact R2| |reflexivity].
        -- exists value_a, [I "A"], fs. split; [exact Hv|reflexivity].
        -- vm_compute in E1. injection E1 as _ _ <-. vm_compute in E2. injection E2 as <- _ _. left. reflexivity.
      * pose proof (R1 (LField 0)) as S1. pose proof (R2 (LField 0)) as S2.
        vm_compute in E1. injection E1 as _ <- <-. vm_compute in S1. injection S1 as S1. cbv beta in S2. rewrite <- S1 in S2.
        vm_compute in E2. injection E2 as _ <- _. vm_compute in S2. injection S2 as S2. rewrite <- S2. reflexivity.
Qed.
