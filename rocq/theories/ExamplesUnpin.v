(** Concrete histories where types are [Unpin].  The struct is [Foo] of
    [ExamplesTraits.v]. *)
From Coq Require Import String Ascii List Bool Arith Permutation.
From Verif Require Import Base Syntax ModelArgs ModelUtils ModelAttribute ModelDerive ModelRun ModelHistory ModelUnpin ModelMeaning ModelTraits.
From Verif Require Import SpecArgs SpecDerive SpecExpand SpecRun SpecHistory SpecTraits SpecUnpin.
From Verif Require Import ProofsArgs ProofsRun ProofsRunMain ProofsHistory ProofsTraits ProofsTraitsProps ProofsUnpin Examples ExamplesRun ExamplesHistory ExamplesTraits.
Import ListNotations.
Open Scope string_scope.
Open Scope list_scope.

Definition foo_world : world := world_of (foo t_default) [] [] false false.
Definition foo_prog : setting := prog (foo t_default) [].
Definition foo_value : uval := mkUval None [1; 2; 3].
Definition foo_fields : fields := match foo t_default with ItStruct s => s_fields s | _ => FUnit end.
Definition foo_a : field := mkField [pin_mark] VInherited (Some (I "a")) (tid "T").
Definition foo_c : field := mkField [pin_mark] VInherited (Some (I "c")) (TyRef (Some "'a") false ty_self).

Lemma foo_program : program foo_world (o_of t_default).
Proof.
  apply c42_program.
  - vm_compute. reflexivity.
  - apply foo_options. cbn. auto.
  - intros fs [<-|[]]. split.
    + intros f [<-|[<-|[<-|[]]]]; discriminate.
    + repeat constructor; cbn; intuition discriminate.
  - constructor.
  - apply nodup_dec. vm_compute. reflexivity.
  - intros fs nf [<-|[]] [<-|[<-|[<-|[]]]]; reflexivity.
  - intros s [<-|[<-|[<-|[<-|[]]]]]; reflexivity.
Qed.
Lemma foo_value_item : value_of (w_item foo_world) foo_value [] foo_fields.
Proof. refine (V_struct _ [1; 2; 3] _). reflexivity. Qed.
Lemma foo_promise : promise_kept foo_prog (least foo_prog).
Proof. intros x s l []. Qed.

(** [Foo<'static, PhantomPinned>]: with a new reference 4, [c] is exchanged by
    [mem::replace(self.project().c.get_mut(), ..)]; then everything is dropped. *)
Definition foo_begun : hist := mkHist (holding foo_value [] Run) true [] [4] [4; 1; 2; 3].
Definition foo_taken : hist :=
  mkHist (holding (mkUval None [1; 2; 4]) [EvRead 2 3; EvStore 2 4] Run) true [] [3] [4; 1; 2; 3].
Lemma foo_begun_history : safe_history foo_prog (least foo_prog) (at_ phantom_pinned_) lt_ foo_world foo_begun.
Proof.
  exists foo_value, [], foo_fields. split; [exact foo_value_item|]. split; [repeat constructor; cbn; intuition discriminate|].
  eapply Usteps_step; [apply Usteps_refl|]. apply U_step. apply (S_new foo_world (begin foo_value) 4); [reflexivity|cbn; intuition discriminate].
Qed.
Lemma foo_taken_steps : safe_steps foo_prog (least foo_prog) (at_ phantom_pinned_) lt_ foo_world foo_begun foo_taken.
Proof.
  eapply Usteps_step; [apply Usteps_refl|].
  change foo_taken with (mkHist (take_field 2 3 4 (h_st foo_begun)) (h_alive foo_begun) (h_stack foo_begun) [3] (h_created foo_begun)).
  eapply (U_take foo_world _ _ foo_begun _ _ (h_st foo_begun) (Some (I "c")) _ 2 3 4 []);
    [reflexivity|reflexivity|vm_compute; reflexivity|right; right; left; reflexivity| |reflexivity|apply Permutation_refl].
  right. split; [reflexivity|]. exists foo_c. split; [|apply ref_unpin].
  exists foo_value, [], [], foo_fields. split; [reflexivity|]. split; [exact foo_value_item|reflexivity].
Qed.
Lemma foo_a_pinned : pinned_as foo_world foo_begun 0 1 foo_a.
Proof. exists foo_value, [], foo_fields. split; [reflexivity|]. split; [reflexivity|]. split; [exact foo_value_item|]. repeat split. Qed.
Lemma foo_a_not_unpin : ~ least foo_prog (unpin foo_prog) (type_at foo_prog (at_ phantom_pinned_) lt_ foo_a).
Proof.
  apply (pinned_not_unpin (foo t_default) [] (o_of t_default)).
  - apply foo_rust; [cbn; auto|intros x []].
  - apply un_visible. apply foo_uncaptured. cbn. auto.
  - apply foo_options. cbn. auto.
Qed.

(** [Foo<'static, u8>] is [Unpin]: [mem::replace(self.get_mut(), other)]. *)
Definition foo_moved : hist :=
  mkHist (holding (mkUval None [4; 5; 6]) [EvRead 0 1; EvRead 1 2; EvRead 2 3; EvWrite (mkUval None [4; 5; 6])] Run)
    true [] [1; 2; 3] [6; 5; 4; 1; 2; 3].
Lemma foo_moved_history : least foo_prog (unpin foo_prog) (item_at foo_prog (at_ (usr "u8")) lt_) ->
  safe_history foo_prog (least foo_prog) (at_ (usr "u8")) lt_ foo_world foo_moved.
Proof.
  intros Hu. exists foo_value, [], foo_fields. split; [exact foo_value_item|].
  split; [repeat constructor; cbn; intuition discriminate|].
  eapply Usteps_step; [eapply Usteps_step; [eapply Usteps_step; [eapply Usteps_step; [apply Usteps_refl|]|]|]|].
  - apply U_step. apply (S_new foo_world _ 4); [reflexivity|cbn; intuition discriminate].
  - apply U_step. apply (S_new foo_world _ 5); [reflexivity|cbn; intuition discriminate].
  - apply U_step. apply (S_new foo_world _ 6); [reflexivity|cbn; intuition discriminate].
  - cbn. match goal with |- step_unpin _ _ _ ?h _ =>
      pose proof (U_self_replace foo_world _ (fun f => least foo_prog (unpin foo_prog) (type_at foo_prog (at_ (usr "u8")) lt_ f))
        h foo_value [] (mkUval None [4; 5; 6]) [] foo_fields [] Hu eq_refl eq_refl) as H end.
    apply H; [refine (V_struct _ [4; 5; 6] _); reflexivity|]. cbn. apply Permutation_sym. apply (Permutation_rev [4; 5; 6]).
Qed.

(** A user module called [_pin_project] (the first finding): the struct is
    [Unpin], and the value of its pinned field, which is not, is moved. *)
Definition f1_world : world := world_of f1_item [] [] false false.
Definition f1_value : uval := mkUval None [1].
Definition f1_begun : hist := mkHist (holding f1_value [] Run) true [] [2] [2; 1].
Definition f1_moved : hist := mkHist (holding (mkUval None [2]) [EvRead 0 1; EvStore 0 2] Run) true [] [1] [2; 1].
Lemma f1_program : program f1_world f1_opts.
Proof.
  apply c42_program.
  - vm_compute. reflexivity.
  - apply f1_options.
  - intros fs [<-|[]]. split.
    + intros f [<-|[]]; discriminate.
    + repeat constructor; cbn; intuition discriminate.
  - constructor.
  - apply nodup_dec. vm_compute. reflexivity.
  - intros fs nf [<-|[]] [<-|[]]; reflexivity.
  - intros s [<-|[<-|[<-|[<-|[]]]]]; reflexivity.
Qed.
Lemma f1_value_item : value_of (w_item f1_world) f1_value [] (FNamed [f1_field]).
Proof. refine (V_struct (mkStruct [pin_attr f1_args] VPub (I "Foo") (mkGenerics [] None) (FNamed [f1_field])) [1] _). reflexivity. Qed.
Lemma c54_refuted : exists se holds fails a s l w h h' i id f,
  legal se /\ visible se /\ compiles se holds fails /\ promise_kept se holds /\ w_item w = se_item se /\ program w a /\
  safe_history se holds s l w h /\ pinned_as w h i id f /\ ~ holds (unpin se) (type_at se s l f) /\
  safe_steps se holds s l w h h' /\ trace h' = trace h ++ [EvRead i id; EvStore i 2] /\ In id (h_owned h').
Proof.
  exists f1, (least f1), (can_tell f1 (least f1)), f1_opts, (at_ XNever), lt_, f1_world, f1_begun, f1_moved, 0, 1, f1_field.
  split; [exact f1_legal|]. split; [exact f1_visible|]. split; [exact f1_compiles|]. split; [intros x s l []|].
  split; [reflexivity|]. split; [exact f1_program|]. split; [|split; [|split; [|split; [|split]]]].
  - exists f1_value, [], (FNamed [f1_field]). split; [exact f1_value_item|]. split; [repeat constructor; cbn; intuition discriminate|].
    eapply Usteps_step; [apply Usteps_refl|]. apply U_step. apply (S_new f1_world (begin f1_value) 2); [reflexivity|cbn; intuition discriminate].
  - exists f1_value, [], (FNamed [f1_field]). split; [reflexivity|]. split; [reflexivity|]. split; [exact f1_value_item|]. repeat split.
  - rewrite f1_field_type. exact f1_not_unpin.
  - eapply Usteps_step; [apply Usteps_refl|].
    apply (U_self_take f1_world _ _ f1_begun 0 1 2 [] f1_unpin); try reflexivity.
  - reflexivity.
  - left. reflexivity.
Qed.
