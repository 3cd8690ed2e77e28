(** The results of the three methods correspond. *)
From Coq Require Import String List Bool Arith Lia.
From Verif Require Import Base Syntax ModelArgs ModelUtils ModelDerive ModelRun.
From Verif Require Import SpecArgs SpecDerive SpecExpand SpecRun SpecAgree.
From Verif Require Import ProofsRun ProofsRunMain.
Import ListNotations.
Open Scope string_scope.
Open Scope list_scope.

Lemma references_agree fs : Forall2 agree_ref (references true fs) (references false fs).
Proof.
  unfold references. induction (numbered (fields_list fs)) as [|x l IH]; cbn [map]; constructor; [|exact IH].
  destruct (is_pinned (snd x)); constructor.
Qed.
Lemma taken_agree fs ids : length ids = length (fields_list fs) -> Forall2 (agree_own ids) (references true fs) (taken fs ids).
Proof.
  unfold references, taken, numbered. intros L.
  enough (X : forall l r k, length r = length l -> (forall j id, nth_error r j = Some id -> nth_error ids (k + j) = Some id) ->
    Forall2 (agree_own ids)
      (map (fun nf => (f_ident (snd nf), if is_pinned (snd nf) then RPin true (PlField (fst nf)) else RRef true (PlField (fst nf))))
        (combine (seq k (length l)) l))
      (map (fun fi => (f_ident (fst fi), if is_pinned (fst fi) then RPhantom else RVal (snd fi))) (combine l r)))
    by (apply X; [exact L|auto]).
  induction l as [|f l IH]; intros [|i r] k H N; try discriminate; cbn [length seq combine map fst snd]; constructor.
  - destruct (is_pinned f); constructor. rewrite <- (Nat.add_0_r k). apply N. reflexivity.
  - apply IH; [cbn in H; congruence|]. intros j id Hj. replace (S k + j) with (k + S j) by lia. apply N. exact Hj.
Qed.
Lemma value_length it u vp fs : value_of it u vp fs -> length (u_ids u) = length (fields_list fs).
Proof. intros []; assumption. Qed.
Lemma c82_ref w a u vp fs t :
  program w a -> has_proj PMut (w_item w) a = true -> has_proj PRef (w_item w) a = true -> value_of (w_item w) u vp fs ->
  exists n n' l l',
    call_method w "project" (RPin true PlSelf) [] (holding u t Run) = Some (Some (RProj (n :: vp) l), holding u t Run) /\
    call_method w "project_ref" (RPin false PlSelf) [] (holding u t Run) = Some (Some (RProj (n' :: vp) l'), holding u t Run) /\
    Forall2 agree_ref l l' /\ length l = length (u_ids u).
Proof.
  intros P H H' V. eexists _, _, _, _. split; [apply (c14 w a u vp fs t P H V)|]. split; [apply (c15 w a u vp fs t P H' V)|].
  split; [apply references_agree|]. rewrite (value_length _ _ _ _ V). unfold references, numbered.
  rewrite map_length, combine_length, seq_length. apply Nat.min_id.
Qed.
Lemma c82_own w a u vp fs t r :
  program w a -> has_proj PMut (w_item w) a = true -> has_proj POwn (w_item w) a = true -> value_of (w_item w) u vp fs ->
  replaceable fs -> panickers w (select true fs (u_ids u)) = 0 ->
  exists n n' l l' s,
    call_method w "project" (RPin true PlSelf) [] (holding u t Run) = Some (Some (RProj (n :: vp) l), holding u t Run) /\
    call_method w "project_replace" (RPin true PlSelf) [RUser r] (holding u t Run) = Some (Some (RProj (n' :: vp) l'), s) /\
    Forall2 (agree_own (u_ids u)) l l'.
Proof.
  intros P H H' V R Z. eexists _, _, _, _, _. split; [apply (c14 w a u vp fs t P H V)|]. split; [apply (c18 w a u vp fs t r P H' V R Z)|].
  apply taken_agree, (value_length _ _ _ _ V).
Qed.
