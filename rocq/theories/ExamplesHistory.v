(** A concrete history: values are created, a pinned field is assigned, an
    unpinned one is exchanged, and the pinned value is replaced (the destructor of
    the value 3 panics) and dropped. *)
From Coq Require Import String Ascii List Bool Arith Permutation.
From Verif Require Import Base Syntax ModelArgs ModelUtils ModelDerive ModelRun ModelHistory.
From Verif Require Import SpecArgs SpecDerive SpecExpand SpecRun SpecHistory Examples ExamplesRun.
Import ListNotations.
Open Scope string_scope.
Open Scope list_scope.

Definition w3 : world := world_struct [3] false.
Definition events_ex : list event :=
  [EvDrop (PlField 0) 1; EvStore 0 9; EvRead 1 2; EvStore 1 10;
   EvRead 1 10; EvRead 3 4; EvDrop (PlField 0) 9; EvDrop (PlField 2) 3; EvDrop PlTemp 10; EvDrop PlTemp 4; EvWrite other_struct].
Definition before_ex : hist := mkHist (holding value_struct [] Run) true [] [10; 9; 8; 7; 6; 5] [10; 9; 8; 7; 6; 5; 1; 2; 3; 4].
Definition replaced_ex : hist := mkHist (holding other_struct events_ex Run) true [] [2] [10; 9; 8; 7; 6; 5; 1; 2; 3; 4].
Definition dropped_ex : hist :=
  mkHist (mkSt None [None; None; None; None]
            (events_ex ++ [EvDrop (PlField 0) 5; EvDrop (PlField 1) 6; EvDrop (PlField 2) 7; EvDrop (PlField 3) 8]) Run)
    false [] [2] [10; 9; 8; 7; 6; 5; 1; 2; 3; 4].

Lemma steps_trans w h1 h2 h3 : steps w h1 h2 -> steps w h2 h3 -> steps w h1 h3.
Proof. intros H1 H2. induction H2 as [|a b c _ IH Hs]; [exact H1|]. apply (Steps_step _ _ b); auto. Qed.
Lemma steps_one w h1 h2 : step w h1 h2 -> steps w h1 h2.
Proof. intros H. eapply Steps_step; [apply Steps_refl|exact H]. Qed.
Lemma value_struct_item p b : value_of (w_item (world_struct p b)) value_struct [] (FNamed fields_ex).
Proof. apply (V_struct (struct_ex args_struct) [1; 2; 3; 4]). reflexivity. Qed.
Lemma other_struct_item p b : value_of (w_item (world_struct p b)) other_struct [] (FNamed fields_ex).
Proof. apply (V_struct (struct_ex args_struct) [5; 6; 7; 8]). reflexivity. Qed.

Ltac new n := eapply steps_trans; [apply steps_one; apply (S_new _ _ n); [reflexivity|cbn; intuition discriminate]|cbn].
Lemma before_steps : steps w3 (begin value_struct) before_ex.
Proof. new 5. new 6. new 7. new 8. new 9. new 10. apply Steps_refl. Qed.
Lemma replaced_steps : steps w3 before_ex replaced_ex.
Proof.
  eapply steps_trans.
  { apply steps_one. eapply (S_assign w3 before_ex _ _ _ (Some (I "a")) _ 0 9 [10; 8; 7; 6; 5]);
      [reflexivity|reflexivity|vm_compute; reflexivity|left; reflexivity|right; reflexivity|apply perm_swap]. }
  eapply steps_trans.
  { apply steps_one. eapply (S_take w3 _ _ _ _ (Some (I "b")) 1 2 10 [8; 7; 6; 5]);
      [vm_compute; reflexivity|reflexivity|vm_compute; reflexivity|right; left; reflexivity|reflexivity|cbn; apply Permutation_refl]. }
  apply steps_one. match goal with |- step _ ?h _ => 
    pose proof (S_replace w3 h other_struct [] (FNamed fields_ex) None (holding other_struct events_ex Unwind) [2]) as H end.
  vm_compute in H. vm_compute. apply H; try reflexivity.
  - apply (other_struct_item [3] false).
  - change [2; 8; 7; 6; 5] with (rev [5; 6; 7; 8; 2]). apply Permutation_sym. apply Permutation_rev.
Qed.
Lemma dropped_steps : steps w3 replaced_ex dropped_ex.
Proof.
  eapply steps_trans; [apply steps_one; apply (S_final w3 replaced_ex Run); auto|].
  apply steps_one. match goal with |- step _ ?h _ => pose proof (S_final_end w3 h Run) as H end.
  vm_compute in H. vm_compute. apply H; reflexivity.
Qed.
Lemma history_before : history w3 before_ex.
Proof.
  exists value_struct, [], (FNamed fields_ex). split; [apply value_struct_item|]. split; [|apply before_steps].
  repeat constructor; cbn; intuition discriminate.
Qed.
Lemma history_dropped : history w3 dropped_ex.
Proof.
  exists value_struct, [], (FNamed fields_ex). split; [apply value_struct_item|].
  split; [repeat constructor; cbn; intuition discriminate|].
  eapply steps_trans; [apply before_steps|]. eapply steps_trans; [apply replaced_steps|apply dropped_steps].
Qed.
