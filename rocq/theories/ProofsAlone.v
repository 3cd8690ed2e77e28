(** Every field is treated on its own. *)
From Coq Require Import String List Bool Arith Lia.
From Verif Require Import Base Syntax ModelArgs ModelUtils ModelDerive ModelRun.
From Verif Require Import SpecArgs SpecDerive SpecExpand SpecRun SpecPanics SpecAlone.
From Verif Require Import ProofsRun ProofsRunMain ProofsPanics.
Import ListNotations.
Open Scope string_scope.
Open Scope list_scope.

Lemma nth_numbered {A} (l : list A) j : nth_error (numbered l) j = option_map (fun x => (j, x)) (nth_error l j).
Proof.
  unfold numbered. enough (forall k, nth_error (combine (seq k (length l)) l) j = option_map (fun x => (k + j, x)) (nth_error l j)) by apply (H 0).
  revert j. induction l as [|x l IH]; intros [|j] k; cbn; try reflexivity; [rewrite Nat.add_0_r; reflexivity|].
  rewrite IH. destruct (nth_error l j); cbn; [f_equal; f_equal; lia|reflexivity].
Qed.
Lemma nth_references b fs j : option_map snd (nth_error (references b fs) j) =
  option_map (fun f => if is_pinned f then RPin b (PlField j) else RRef b (PlField j)) (nth_error (fields_list fs) j).
Proof.
  unfold references. rewrite nth_error_map, nth_numbered. destruct (nth_error (fields_list fs) j); reflexivity.
Qed.
Lemma nth_combine {A B} (l : list A) : forall (l' : list B) j, nth_error (combine l l') j =
  match nth_error l j, nth_error l' j with Some x, Some y => Some (x, y) | _, _ => None end.
Proof.
  induction l as [|x l IH]; intros [|y l'] [|j]; cbn; try reflexivity; [destruct (nth_error l j); reflexivity|apply IH].
Qed.
Lemma nth_taken fs ids j : option_map snd (nth_error (taken fs ids) j) =
  match nth_error (fields_list fs) j, nth_error ids j with
  | Some f, Some i => Some (if is_pinned f then RPhantom else RVal i)
  | _, _ => None
  end.
Proof.
  unfold taken. rewrite nth_error_map, nth_combine. destruct (nth_error (fields_list fs) j), (nth_error ids j); reflexivity.
Qed.
Lemma pick_numbered {A} (l : list A) j (g : nat * A -> list event) :
  (forall x, forall e, In e (g x) -> about j e = Nat.eqb (fst x) j) ->
  filter (about j) (flat_map g (numbered l)) = match nth_error l j with Some x => g (j, x) | None => [] end.
Proof.
  unfold numbered. intros G.
  assert (Y : forall x, filter (about j) (g x) = if Nat.eqb (fst x) j then g x else []).
  { intros x. specialize (G x). induction (g x) as [|e r IH]; [destruct (Nat.eqb _ _); reflexivity|]. cbn [filter].
    rewrite (G e (or_introl eq_refl)), IH by (intros y Hy; apply G; right; exact Hy). destruct (Nat.eqb (fst x) j); reflexivity. }
  assert (Z : forall k, j < k -> filter (about j) (flat_map g (combine (seq k (length l)) l)) = []).
  { induction l as [|x l IH]; intros k H; cbn; [reflexivity|]. rewrite filter_app, Y. cbn [fst].
    destruct (Nat.eqb_spec k j); [lia|]. cbn [app]. apply IH. lia. }
  enough (Q : forall k, k <= j -> filter (about j) (flat_map g (combine (seq k (length l)) l)) =
    match nth_error l (j - k) with Some x => g (j, x) | None => [] end) by (rewrite (Q 0), Nat.sub_0_r by lia; reflexivity).
  revert Z. induction l as [|x l IH]; intros Z k H; cbn [length seq combine flat_map].
  - destruct (j - k); reflexivity.
  - rewrite filter_app, Y. cbn [fst].
    assert (Z' : forall k, j < k -> filter (about j) (flat_map g (combine (seq k (length l)) l)) = []).
    { clear - Y. intros k H. revert k H. induction l as [|y l IHl]; intros k H; cbn; [reflexivity|]. rewrite filter_app, Y. cbn [fst].
      destruct (Nat.eqb_spec k j); [lia|]. cbn [app]. apply IHl. lia. }
    destruct (Nat.eqb_spec k j) as [->|N].
    + rewrite Nat.sub_diag. cbn [nth_error]. rewrite Z' by lia. apply app_nil_r.
    + cbn [app]. rewrite (IH Z') by lia. replace (j - k) with (S (j - S k)) by lia. reflexivity.
Qed.
Lemma map_select {B} (h : nat * nat -> B) b fs ids : map h (select b fs ids) =
  flat_map (fun x => if Bool.eqb (is_pinned (fst (snd x))) b then [h (fst x, snd (snd x))] else []) (numbered (combine (fields_list fs) ids)).
Proof.
  unfold select. induction (numbered (combine (fields_list fs) ids)) as [|x l IH]; [reflexivity|].
  cbn [flat_map]. rewrite map_app, IH. destruct (Bool.eqb _ b); reflexivity.
Qed.
Lemma pick_select (h : nat * nat -> event) b fs ids j : (forall x, about j (h x) = Nat.eqb (fst x) j) ->
  filter (about j) (map h (select b fs ids)) =
  match nth_error (fields_list fs) j, nth_error ids j with
  | Some f, Some i => if Bool.eqb (is_pinned f) b then [h (j, i)] else []
  | _, _ => []
  end.
Proof.
  intros H. rewrite map_select, pick_numbered.
  - rewrite nth_combine. destruct (nth_error (fields_list fs) j), (nth_error ids j); reflexivity.
  - intros x e. destruct (Bool.eqb _ b); intros He; [|destruct He]. destruct He as [<-|[]]. apply H.
Qed.

Lemma c81_project w w' a a' u u' vp vp' fs fs' t t' j :
  program w a -> program w' a' -> has_proj PMut (w_item w) a = true -> has_proj PMut (w_item w') a' = true ->
  value_of (w_item w) u vp fs -> value_of (w_item w') u' vp' fs' -> same_mark j fs fs' ->
  exists v v' p, call_method w "project" (RPin true PlSelf) [] (holding u t Run) = Some (v, holding u t Run) /\
    call_method w' "project" (RPin true PlSelf) [] (holding u' t' Run) = Some (v', holding u' t' Run) /\
    part j v = Some p /\ part j v' = Some p.
Proof.
  intros P P' H H' V V' (f & f' & E & E' & M). eexists _, _, (if is_pinned f then _ else _).
  split; [apply (c14 w a u vp fs t P H V)|]. split; [apply (c14 w' a' u' vp' fs' t' P' H' V')|].
  cbn [part]. rewrite !nth_references, E, E'. cbn [option_map]. rewrite <- M. split; reflexivity.
Qed.
Lemma c81_project_ref w w' a a' u u' vp vp' fs fs' t t' j :
  program w a -> program w' a' -> has_proj PRef (w_item w) a = true -> has_proj PRef (w_item w') a' = true ->
  value_of (w_item w) u vp fs -> value_of (w_item w') u' vp' fs' -> same_mark j fs fs' ->
  exists v v' p, call_method w "project_ref" (RPin false PlSelf) [] (holding u t Run) = Some (v, holding u t Run) /\
    call_method w' "project_ref" (RPin false PlSelf) [] (holding u' t' Run) = Some (v', holding u' t' Run) /\
    part j v = Some p /\ part j v' = Some p.
Proof.
  intros P P' H H' V V' (f & f' & E & E' & M). eexists _, _, (if is_pinned f then _ else _).
  split; [apply (c15 w a u vp fs t P H V)|]. split; [apply (c15 w' a' u' vp' fs' t' P' H' V')|].
  cbn [part]. rewrite !nth_references, E, E'. cbn [option_map]. rewrite <- M. split; reflexivity.
Qed.
Lemma elsewhere_not_about j l : filter (about j) (map dropped_elsewhere l) = [].
Proof. induction l as [|x l IH]; [reflexivity|exact IH]. Qed.
Lemma replace_about w a u vp fs t r j f id v s :
  program w a -> has_proj POwn (w_item w) a = true -> value_of (w_item w) u vp fs -> replaceable fs ->
  nth_error (fields_list fs) j = Some f -> nth_error (u_ids u) j = Some id ->
  call_method w "project_replace" (RPin true PlSelf) [RUser r] (holding u t Run) = Some (v, s) -> s_stat s <> Abort ->
  (exists ev, s_trace s = t ++ ev /\ filter (about j) ev = [if is_pinned f then EvDrop (PlField j) id else EvRead j id]) /\
  (v <> None -> part j v = Some (if is_pinned f then RPhantom else RVal id)).
Proof.
  intros P H V R F U C A.
  destruct (Nat.eq_dec (panickers w (select true fs (u_ids u))) 0) as [Z|Z].
  - rewrite (c18 w a u vp fs t r P H V R Z) in C. injection C as <- <-. split.
    + eexists. split; [reflexivity|]. rewrite !filter_app, !pick_select by reflexivity. rewrite F, U.
      destruct (is_pinned f); reflexivity.
    + intros _. cbn [part]. rewrite nth_taken, F, U. reflexivity.
  - destruct (c19_exact w a u vp fs t r P H V R) as (s' & C' & X & T); [lia|]. rewrite C in C'. injection C' as -> ->.
    split; [|intros Q; elim Q; reflexivity].
    destruct (calls_prefix (bad_call w t) (map dropped_in_place (select true fs (u_ids u)) ++ map dropped_elsewhere (select false fs (u_ids u))) Run)
      as (rest & E & N). rewrite <- X in N. rewrite (N (or_introl eq_refl) A), app_nil_r in E. rewrite <- E in T.
    eexists. split; [exact T|]. rewrite !filter_app, !pick_select, elsewhere_not_about by reflexivity. rewrite F, U.
    destruct (snd _); destruct (is_pinned f); reflexivity.
Qed.
Lemma c81_replace w w' a a' u u' vp vp' fs fs' t t' r r' j id v v' s s' :
  program w a -> program w' a' -> has_proj POwn (w_item w) a = true -> has_proj POwn (w_item w') a' = true ->
  value_of (w_item w) u vp fs -> value_of (w_item w') u' vp' fs' -> replaceable fs -> replaceable fs' ->
  same_mark j fs fs' -> nth_error (u_ids u) j = Some id -> nth_error (u_ids u') j = Some id ->
  call_method w "project_replace" (RPin true PlSelf) [RUser r] (holding u t Run) = Some (v, s) ->
  call_method w' "project_replace" (RPin true PlSelf) [RUser r'] (holding u' t' Run) = Some (v', s') ->
  s_stat s <> Abort -> s_stat s' <> Abort ->
  (exists ev ev' e, s_trace s = t ++ ev /\ s_trace s' = t' ++ ev' /\ filter (about j) ev = [e] /\ filter (about j) ev' = [e]) /\
  (v <> None -> v' <> None -> exists p, part j v = Some p /\ part j v' = Some p).
Proof.
  intros P P' H H' V V' R R' (f & f' & E & E' & M) U U' C C' A A'.
  destruct (replace_about w a u vp fs t r j f id v s P H V R E U C A) as [(ev & T & Q) B].
  destruct (replace_about w' a' u' vp' fs' t' r' j f' id v' s' P' H' V' R' E' U' C' A') as [(ev' & T' & Q') B']. rewrite <- M in Q', B'.
  split; [exists ev, ev'; eauto 6|]. intros N N'. eauto.
Qed.
Lemma pick_all u j : filter (about j) (map dropped_in_place (all_fields u)) =
  match nth_error (u_ids u) j with Some id => [EvDrop (PlField j) id] | None => [] end.
Proof.
  unfold all_fields.
  assert (E : forall l, map dropped_in_place l = flat_map (fun x => [dropped_in_place x]) l).
  { induction l as [|x l IH]; [reflexivity|]. cbn. rewrite IH. reflexivity. }
  rewrite E, pick_numbered; [reflexivity|]. intros x e [<-|[]]. reflexivity.
Qed.
Lemma c81_drop w a u t x j id :
  program w a -> nth_error (u_ids u) j = Some id -> x = Run \/ x = Unwind -> s_stat (drop_self w (holding u t x)) <> Abort ->
  exists ev, s_trace (drop_self w (holding u t x)) = t ++ ev /\ filter (about j) ev = [EvDrop (PlField j) id].
Proof.
  intros P U X A. destruct (ar_pinned_drop a) eqn:D.
  - destruct (c23_exact w a u t x P D X) as [T S]. rewrite S in A.
    destruct (calls_prefix (bad_call w t) (EvBody PlSelf :: map dropped_in_place (all_fields u)) x) as (rest & E & N).
    rewrite (N X A), app_nil_r in E. rewrite <- E in T. eexists. split; [exact T|]. cbn [filter about]. rewrite pick_all, U. reflexivity.
  - destruct (c25_exact w a u t x P D X) as [T S]. rewrite S in A.
    destruct (calls_prefix (bad_call w t) (map dropped_in_place (all_fields u)) x) as (rest & E & N).
    rewrite (N X A), app_nil_r in E. rewrite <- E in T. eexists. split; [exact T|]. rewrite pick_all, U. reflexivity.
Qed.
