(** Names do not change what the generated methods do. *)
From Coq Require Import String List Bool Arith Lia.
From Verif Require Import Base Syntax ModelArgs ModelUtils ModelDerive ModelRun.
From Verif Require Import SpecArgs SpecDerive SpecExpand SpecRun SpecPanics SpecShape SpecNames.
From Verif Require Import ProofsRun ProofsRunMain ProofsPanics ProofsShape.
Import ListNotations.
Open Scope string_scope.
Open Scope list_scope.

Lemma pins_references b fs fs' : pins fs = pins fs' -> map snd (references b fs) = map snd (references b fs').
Proof.
  unfold pins, references, numbered. generalize 0. generalize (fields_list fs), (fields_list fs'). intros l.
  induction l as [|f l IH]; intros [|g l'] k H; try discriminate; [reflexivity|]. cbn [map] in H. injection H as H1 H2.
  cbn [length seq combine map snd fst]. rewrite H1, (IH l' (S k) H2). reflexivity.
Qed.
Lemma pins_taken fs fs' ids : pins fs = pins fs' -> map snd (taken fs ids) = map snd (taken fs' ids).
Proof.
  unfold pins, taken. generalize (fields_list fs), (fields_list fs'). intros l. revert ids.
  induction l as [|f l IH]; intros ids [|g l'] H; try discriminate; [reflexivity|]. cbn [map] in H. injection H as H1 H2.
  destruct ids as [|i ids]; [reflexivity|]. cbn [combine map fst snd]. rewrite H1, (IH ids l' H2). reflexivity.
Qed.
Lemma pins_select b fs fs' ids : pins fs = pins fs' -> select b fs ids = select b fs' ids.
Proof.
  unfold pins, select, numbered. generalize 0. generalize (fields_list fs), (fields_list fs'). intros l. revert ids.
  induction l as [|f l IH]; intros ids [|g l'] k H; try discriminate; [reflexivity|]. cbn [map] in H. injection H as H1 H2.
  destruct ids as [|i ids]; [reflexivity|]. cbn [combine length seq flat_map fst snd]. rewrite H1, (IH ids l' (S k) H2). reflexivity.
Qed.

Lemma c79_project w w' a a' u u' vp vp' fs fs' t :
  program w a -> program w' a' -> has_proj PMut (w_item w) a = true -> has_proj PMut (w_item w') a' = true ->
  value_of (w_item w) u vp fs -> value_of (w_item w') u' vp' fs' -> pins fs = pins fs' ->
  exists v v',
    call_method w "project" (RPin true PlSelf) [] (holding u t Run) = Some (v, holding u t Run) /\
    call_method w' "project" (RPin true PlSelf) [] (holding u' t Run) = Some (v', holding u' t Run) /\ same_result v v'.
Proof.
  intros P P' H H' V V' S. eexists _, _. split; [apply (c14 w a u vp fs t P H V)|]. split; [apply (c14 w' a' u' vp' fs' t P' H' V')|].
  constructor. apply pins_references, S.
Qed.
Lemma c79_project_ref w w' a a' u u' vp vp' fs fs' t :
  program w a -> program w' a' -> has_proj PRef (w_item w) a = true -> has_proj PRef (w_item w') a' = true ->
  value_of (w_item w) u vp fs -> value_of (w_item w') u' vp' fs' -> pins fs = pins fs' ->
  exists v v',
    call_method w "project_ref" (RPin false PlSelf) [] (holding u t Run) = Some (v, holding u t Run) /\
    call_method w' "project_ref" (RPin false PlSelf) [] (holding u' t Run) = Some (v', holding u' t Run) /\ same_result v v'.
Proof.
  intros P P' H H' V V' S. eexists _, _. split; [apply (c15 w a u vp fs t P H V)|]. split; [apply (c15 w' a' u' vp' fs' t P' H' V')|].
  constructor. apply pins_references, S.
Qed.
Lemma c79_replace w w' a a' u u' vp vp' fs fs' t r r' :
  program w a -> program w' a' -> has_proj POwn (w_item w) a = true -> has_proj POwn (w_item w') a' = true ->
  value_of (w_item w) u vp fs -> value_of (w_item w') u' vp' fs' -> replaceable fs -> replaceable fs' ->
  pins fs = pins fs' -> u_ids u = u_ids u' -> u_ids r = u_ids r' -> same_panics w w' ->
  exists v v' s s',
    call_method w "project_replace" (RPin true PlSelf) [RUser r] (holding u t Run) = Some (v, s) /\
    call_method w' "project_replace" (RPin true PlSelf) [RUser r'] (holding u' t Run) = Some (v', s') /\
    same_result v v' /\ map nameless (s_trace s) = map nameless (s_trace s') /\ s_stat s = s_stat s' /\
    (s_stat s <> Abort -> stored s = stored s').
Proof.
  intros P P' H H' V V' R R' S U W B.
  pose proof (pins_select true fs fs' (u_ids u) S) as S1. pose proof (pins_select false fs fs' (u_ids u) S) as S2.
  destruct (Nat.eq_dec (panickers w (select true fs (u_ids u))) 0) as [Z|Z].
  - pose proof Z as Z'. rewrite (same_panickers w w' _ B), S1, U in Z'.
    pose proof (c18 w a u vp fs t r P H V R Z) as E. pose proof (c18 w' a' u' vp' fs' t r' P' H' V' R' Z') as E'.
    rewrite <- U, <- S1, <- S2 in E'.
    eexists _, _, _, _. split; [exact E|]. split; [exact E'|]. split; [constructor; apply pins_taken, S|].
    split; [cbn [holding s_trace]; rewrite !map_app; cbn [map nameless]; rewrite W; reflexivity|].
    split; [reflexivity|]. intros _. unfold stored, holding. cbn [s_slots]. rewrite W. reflexivity.
  - destruct (c19_exact w a u vp fs t r P H V R) as (s & E & X & T); [lia|].
    destruct (c19_exact w' a' u' vp' fs' t r' P' H' V' R') as (s' & E' & X' & T'); [rewrite <- (same_panickers w w' _ B), <- U, <- S1; lia|].
    rewrite <- U, <- S1, <- S2, <- (calls_ext _ _ _ (same_bad w w' t B)) in X', T'.
    exists None, None, s, s'. split; [exact E|]. split; [exact E'|]. split; [constructor|].
    split. { rewrite T, T', !map_app. destruct (snd _); cbn [map nameless]; rewrite ?W; reflexivity. }
    split; [congruence|]. intros A.
    destruct (c19_conserved w a u vp fs t r None s P H V R E A) as (ev & _ & _ & ->).
    destruct (c19_conserved w' a' u' vp' fs' t r' None s' P' H' V' R' E') as (ev' & _ & _ & ->); congruence.
Qed.
Lemma c79_drop w w' a a' u u' t x :
  program w a -> program w' a' -> ar_pinned_drop a = ar_pinned_drop a' -> u_ids u = u_ids u' -> same_panics w w' ->
  x = Run \/ x = Unwind ->
  s_trace (drop_self w (holding u t x)) = s_trace (drop_self w' (holding u' t x)) /\
  s_stat (drop_self w (holding u t x)) = s_stat (drop_self w' (holding u' t x)).
Proof.
  intros P P' D U B X. assert (F : all_fields u = all_fields u') by (unfold all_fields; rewrite U; reflexivity).
  destruct (ar_pinned_drop a) eqn:Ha; symmetry in D.
  - destruct (c23_exact w a u t x P Ha X) as [-> ->]. destruct (c23_exact w' a' u' t x P' D X) as [-> ->].
    rewrite F, (calls_ext _ _ _ (same_bad w w' t B)). auto.
  - destruct (c25_exact w a u t x P Ha X) as [-> ->]. destruct (c25_exact w' a' u' t x P' D X) as [-> ->].
    rewrite F, (calls_ext _ _ _ (same_bad w w' t B)). auto.
Qed.
