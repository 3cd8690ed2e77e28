(** Two values, one inside of the other: [Foo<'static, Foo<'static, PhantomPinned>>]
    with the struct [Foo] of [ExamplesTraits.v]. *)
From Coq Require Import String Ascii List Bool Arith Permutation.
From Verif Require Import Base Syntax ModelArgs ModelUtils ModelAttribute ModelDerive ModelRun ModelHistory ModelUnpin ModelMeaning ModelTraits.
From Verif Require Import SpecArgs SpecDerive SpecExpand SpecRun SpecHistory SpecTraits SpecUnpin SpecNested.
From Verif Require Import ProofsUnpin Examples ExamplesRun ExamplesHistory ExamplesTraits ExamplesUnpin.
Import ListNotations.
Open Scope string_scope.
Open Scope list_scope.

Definition inner_foo : D (se_univ foo_prog) := item_at foo_prog (at_ phantom_pinned_) lt_.
Definition foo_level (t : D (se_univ foo_prog)) (h : hist) : level :=
  mkLevel foo_prog (least foo_prog) (can_tell foo_prog (least foo_prog)) (o_of t_default) (at_ t) lt_ foo_world h 0 1 foo_a.
Lemma foo_level_sound t : sound_level (foo_level t foo_begun).
Proof.
  constructor; cbn [foo_level lv_se lv_holds lv_fails lv_args lv_s lv_l lv_world lv_hist lv_field lv_id lv_decl].
  - apply foo_legal.
  - apply foo_uncaptured. cbn. auto.
  - apply foo_compiles. cbn. auto.
  - exact foo_promise.
  - reflexivity.
  - exact foo_program.
  - exists foo_value, [], foo_fields. split; [exact foo_value_item|]. split; [repeat constructor; cbn; intuition discriminate|].
    eapply Usteps_step; [apply Usteps_refl|]. apply U_step. apply (S_new foo_world (begin foo_value) 4); [reflexivity|cbn; intuition discriminate].
  - exact foo_a_pinned.
Qed.
Lemma foo_enclosed : enclosed [foo_level inner_foo foo_begun; foo_level phantom_pinned_ foo_begun].
Proof.
  split; [apply foo_level_sound|]. split; [|split; [apply foo_level_sound|exact foo_a_not_unpin]].
  unfold field_unpin, self_unpin. cbn [foo_level lv_se lv_holds lv_fails lv_args lv_s lv_l lv_world lv_hist lv_field lv_id lv_decl].
  change (type_at foo_prog (at_ inner_foo) lt_ foo_a) with inner_foo. reflexivity.
Qed.

(** The outer value is dropped.  This runs the destructor of the inner one. *)
Definition foo_dropping : hist := mkHist (holding foo_value [] Run) true [(None, Run)] [4] [4; 1; 2; 3].
Definition foo_dropped : hist :=
  mkHist (mkSt None [None; None; None] [EvDrop (PlField 0) 1; EvDrop (PlField 1) 2; EvDrop (PlField 2) 3] Run) false [] [4] [4; 1; 2; 3].
Lemma foo_drop_begins t : lv_step (foo_level t foo_begun) foo_dropping.
Proof. apply U_step. apply (S_final foo_world foo_begun Run); auto. Qed.
Lemma foo_drop_ends t : lv_step (foo_level t foo_dropping) foo_dropped.
Proof. apply U_step. apply (S_final_end foo_world foo_dropping Run); reflexivity. Qed.
Lemma foo_nested : nested [foo_level inner_foo foo_begun; foo_level phantom_pinned_ foo_begun]
  [(1, EvDrop (PlField 0) 1); (0, EvDrop (PlField 0) 1)] None.
Proof.
  apply (N_step [] _ [foo_level phantom_pinned_ foo_begun] foo_dropping [] [(1, EvDrop (PlField 0) 1); (0, EvDrop (PlField 0) 1)] None
           (foo_drop_begins inner_foo) eq_refl (fun H => H)).
  apply (N_drop [] (foo_level inner_foo foo_dropping) [foo_level phantom_pinned_ foo_begun] foo_dropped []
           [EvDrop (PlField 1) 2; EvDrop (PlField 2) 3] [(0, EvDrop (PlField 0) 1)] None (foo_drop_ends inner_foo) eq_refl (fun H => H));
    [discriminate| |discriminate].
  apply (N_step [] _ [] foo_dropping [] [(0, EvDrop (PlField 0) 1)] None (foo_drop_begins phantom_pinned_) eq_refl (fun H => H)).
  apply (N_leaf [] (foo_level phantom_pinned_ foo_dropping) foo_dropped [] [EvDrop (PlField 1) 2; EvDrop (PlField 2) 3]
           (foo_drop_ends phantom_pinned_) eq_refl (fun H => H)).
Qed.
