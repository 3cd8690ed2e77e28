(** C54: what safe code can do with a pinned value, taking into account which
    types are [Unpin]. *)
From Coq Require Import String Ascii List Bool Arith Permutation.
From Verif Require Import Base Syntax ModelArgs ModelUtils ModelAttribute ModelDerive ModelRun ModelHistory ModelUnpin ModelMeaning ModelTraits.
From Verif Require Import SpecArgs SpecDerive SpecExpand SpecRun SpecHistory SpecTraits SpecUnpin.
From Verif Require Import ProofsUnpin Examples ExamplesTraits ExamplesUnpin PropTraits.
Import ListNotations.
Open Scope list_scope.

(** ** C54: a value in a pinned field whose type is not [Unpin] stays untouched
    until its destructor runs there (or forever, or until the process aborts). *)
Theorem C54_not_moved : forall se holds fails a s l w h h' i id f,
  legal se -> uncaptured se -> compiles se holds fails -> promise_kept se holds ->
  w_item w = se_item se -> program w a ->
  safe_history se holds s l w h -> pinned_as w h i id f -> ~ holds (unpin se) (type_at se s l f) ->
  safe_steps se holds s l w h h' ->
  exists evs, trace h' = trace h ++ evs /\
    ((Forall (untouched i id) evs /\ (pinned_as w h' i id f \/ aborted h')) \/
     (exists e1 e2, evs = e1 ++ EvDrop (PlField i) id :: e2 /\ Forall (untouched i id) e1)).
Proof. exact c54. Qed.
Print Assumptions C54_not_moved.
(** [Foo<'static, PhantomPinned>]: the [PhantomPinned] in the pinned field [a]
    stays, while the reference in the pinned field [c] is moved out. *)
Example C54_example : legal foo_prog /\ uncaptured foo_prog /\ compiles foo_prog (least foo_prog) (can_tell foo_prog (least foo_prog)) /\
  promise_kept foo_prog (least foo_prog) /\ w_item foo_world = se_item foo_prog /\ program foo_world (o_of t_default) /\
  safe_history foo_prog (least foo_prog) (at_ phantom_pinned_) lt_ foo_world foo_begun /\
  pinned_as foo_world foo_begun 0 1 foo_a /\ ~ least foo_prog (unpin foo_prog) (type_at foo_prog (at_ phantom_pinned_) lt_ foo_a) /\
  safe_steps foo_prog (least foo_prog) (at_ phantom_pinned_) lt_ foo_world foo_begun foo_taken /\
  trace foo_taken = trace foo_begun ++ [EvRead 2 3; EvStore 2 4] /\ pinned foo_c.
Proof.
  split; [apply foo_legal|]. split; [apply foo_uncaptured; cbn; auto|]. split; [apply foo_compiles; cbn; auto|].
  split; [exact foo_promise|]. split; [reflexivity|]. split; [exact foo_program|]. split; [exact foo_begun_history|].
  split; [exact foo_a_pinned|]. split; [exact foo_a_not_unpin|]. split; [exact foo_taken_steps|]. split; [reflexivity|].
  exists pin_mark. split; [left; reflexivity|]. repeat split.
Qed.
(** [Foo<'static, u8>] is [Unpin], and is moved out of its place. *)
Example C54_moved : program foo_world (o_of t_default) /\
  safe_history foo_prog (least foo_prog) (at_ (ExamplesTraits.usr "u8")) lt_ foo_world foo_moved /\ h_owned foo_moved = [1; 2; 3].
Proof. split; [exact foo_program|]. split; [|reflexivity]. apply foo_moved_history. apply C28_ex. Qed.

(** Without the condition on names ([uncaptured]) it is false: the first finding
    lets safe code move a pinned value. *)
Theorem C54_captured_refuted : exists se holds fails a s l w h h' i id f,
  legal se /\ visible se /\ compiles se holds fails /\ promise_kept se holds /\ w_item w = se_item se /\ program w a /\
  safe_history se holds s l w h /\ pinned_as w h i id f /\ ~ holds (unpin se) (type_at se s l f) /\
  safe_steps se holds s l w h h' /\ trace h' = trace h ++ [EvRead i id; EvStore i 2] /\ In id (h_owned h').
Proof. exact c54_refuted. Qed.
Print Assumptions C54_captured_refuted.

(** ** C22, for these histories: no value is destroyed twice or lost. *)
Theorem C22_unpin_destroyed_once : forall se holds s l w a h, program w a -> safe_history se holds s l w h ->
  NoDup (destroyed (trace h)) /\ incl (destroyed (trace h)) (h_created h).
Proof. exact c54_once. Qed.
Print Assumptions C22_unpin_destroyed_once.
Theorem C22_unpin_accounted : forall se holds s l w a h, program w a -> safe_history se holds s l w h -> aborted h \/
  (s_stat (h_st h) = Run /\ NoDup (h_created h) /\
   Permutation (h_created h) (stored (h_st h) ++ incoming h ++ h_owned h ++ destroyed (trace h)) /\
   (h_alive h = true -> forall o, In o (s_slots (h_st h)) -> o <> None) /\ (h_alive h = false -> stored (h_st h) = [])).
Proof. exact c54_all. Qed.
Print Assumptions C22_unpin_accounted.
(** The hypotheses are those of [C54_example] and [C54_moved]. *)
Example C22_unpin_example : program foo_world (o_of t_default) /\
  safe_history foo_prog (least foo_prog) (at_ phantom_pinned_) lt_ foo_world foo_begun.
Proof. split; [exact foo_program|exact foo_begun_history]. Qed.
