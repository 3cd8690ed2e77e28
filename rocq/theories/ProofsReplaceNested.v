(** Proofs about [project_replace] on nested values. *)
From Coq Require Import String List Bool Arith Lia.
From Verif Require Import Base Syntax ModelArgs ModelUtils ModelDerive ModelRun ModelDestroy.
From Verif Require Import SpecArgs SpecDerive SpecExpand SpecRun SpecPanics SpecDestroy.
From Verif Require Import ProofsRun ProofsRunMain ProofsRunReplace ProofsRunDrop ProofsPanics ProofsDestroy.
Import ListNotations.
Open Scope string_scope.
Open Scope list_scope.

Section Opts.
Context (opts : world -> args).

Lemma calls_map {A B} (f : A * bool -> B * bool) (Hf : forall x, snd (f x) = snd x) l : forall x,
  calls snd (map f l) x = (map f (fst (calls snd l x)), snd (calls snd l x)).
Proof.
  induction l as [|c l IH]; intros x; [reflexivity|]. cbn [map]. destruct (alive x) eqn:A1.
  - rewrite !calls_cons by exact A1. rewrite Hf, IH. cbn [fst snd map]. reflexivity.
  - rewrite !calls_dead by exact A1. reflexivity.
Qed.

Definition kid (kids : list tree) (i : nat) : tree := nth i kids (Plain false).
Lemma kid_declared kids i : (forall k, In k kids -> declared opts k) -> declared opts (kid kids i).
Proof.
  intros H. unfold kid. destruct (nth_in_or_default i kids (Plain false)) as [E|E]; [apply H, E|]. rewrite E. constructor.
Qed.
Lemma flags_path t : forall p q, map snd (in_order opts p t) = map snd (in_order opts q t).
Proof.
  induction t as [b|w v ks IH] using tree_rect'; intros p q; [reflexivity|]. rewrite !in_order_projected, !map_app. f_equal.
  - destruct (ar_pinned_drop (opts w)); reflexivity.
  - generalize 0. induction ks as [|k r IHr]; intros n; [reflexivity|]. cbn [fields_in_order]. rewrite !map_app. f_equal.
    + apply IH. left. reflexivity.
    + apply IHr. intros k' Hk. apply IH. right. exact Hk.
Qed.
Lemma flags_count {A} (l : list (A * bool)) : length (filter snd l) = length (filter (fun b => b) (map snd l)).
Proof. induction l as [|[v []] l IH]; cbn; congruence. Qed.
Lemma kid_panics_count kids i p : (forall k, In k kids -> declared opts k) ->
  kid_panics kids i = negb (Nat.eqb (length (filter snd (in_order opts p (kid kids i)))) 0).
Proof.
  intros D. unfold kid_panics. fold (kid kids i). rewrite (c73 opts _ (kid_declared kids i D)). cbn [snd].
  rewrite calls_stat by auto. rewrite !flags_count, (flags_path _ p []), <- !flags_count, Nat.add_0_r.
  destruct (length (filter snd (in_order opts [] (kid kids i)))) as [|[|n]]; reflexivity.
Qed.
Lemma kid_quiet kids i x : (forall k, In k kids -> declared opts k) -> x = Run \/ x = Unwind ->
  kid_panics kids i = false -> snd (destroy [i] (kid kids i) x) = x.
Proof.
  intros D Hx H. rewrite (kid_panics_count kids i [i] D) in H. rewrite (c73 opts _ (kid_declared kids i D)). cbn [snd].
  rewrite calls_stat by exact Hx. destruct (length _); [|discriminate]. destruct Hx as [->| ->]; reflexivity.
Qed.
Lemma kid_bad kids i : (forall k, In k kids -> declared opts k) -> kid_panics kids i = true ->
  (snd (destroy [i] (kid kids i) Run) = Unwind \/ snd (destroy [i] (kid kids i) Run) = Abort) /\
  snd (destroy [i] (kid kids i) Unwind) = Abort.
Proof.
  intros D H. rewrite (kid_panics_count kids i [i] D) in H. rewrite !(c73 opts _ (kid_declared kids i D)). cbn [snd].
  rewrite !calls_stat by auto. destruct (length _) as [|[|n]]; [discriminate|cbn; auto|cbn; auto].
Qed.

(** What one destructor of the level stands for. *)
Definition spread (kids : list tree) (e : event) : list (effect * bool) :=
  match e with
  | EvDrop (PlField _) i => map inside (in_order opts [i] (kid kids i))
  | EvDrop _ i => map moved_out (in_order opts [i] (kid kids i))
  | _ => []
  end.
Definition is_drop (e : event) : Prop := match e with EvDrop _ _ => True | _ => False end.

Lemma unfold_dead kids l x : going x = false -> unfold_events kids l x = ([], x).
Proof. intros H. destruct l; [reflexivity|]. cbn [unfold_events]. rewrite H. reflexivity. Qed.
Lemma going_alive x : going x = alive x. Proof. destruct x; reflexivity. Qed.

Lemma unfold_drop kids e r x : (forall k, In k kids -> declared opts k) -> is_drop e ->
  unfold_events kids (e :: r) x =
  let (e1, y) := calls snd (spread kids e) x in let (e2, z) := unfold_events kids r y in (map fst e1 ++ e2, z).
Proof.
  intros D He. destruct (going x) eqn:G.
  2:{ rewrite unfold_dead by exact G. rewrite calls_dead by (rewrite <- going_alive; exact G). rewrite unfold_dead by exact G. reflexivity. }
  cbn [unfold_events]. rewrite G. destruct e as [p i| | | |]; try destruct He. fold (kid kids i).
  rewrite (c73 opts _ (kid_declared kids i D)).
  destruct p; cbn [spread]; rewrite calls_map by reflexivity;
    destruct (calls snd (in_order opts [i] (kid kids i)) x) as [l y]; cbn [fst snd];
    destruct (unfold_events kids r y) as [l2 z]; rewrite !map_map; reflexivity.
Qed.
Lemma spread_stat kids p i x : (forall k, In k kids -> declared opts k) ->
  snd (calls snd (spread kids (EvDrop p i)) x) = snd (destroy [i] (kid kids i) x).
Proof.
  intros D. rewrite (c73 opts _ (kid_declared kids i D)). destruct p; cbn [spread]; rewrite calls_map by reflexivity; reflexivity.
Qed.

(** The level stops no earlier than the destructors inside do. *)
Lemma unfold_calls w t kids evs rest : (forall k, In k kids -> declared opts k) -> Forall is_drop evs ->
  forall x, x = Run \/ x = Unwind ->
  let r := calls (bad_call (with_kids w kids) t) evs x in
  let c := calls snd (flat_map (spread kids) evs) x in
  unfold_events kids (fst r ++ rest) x = (map fst (fst c) ++ fst (unfold_events kids rest (snd c)), snd (unfold_events kids rest (snd c))) /\
  (snd r = snd c \/ snd c = Abort).
Proof.
  intros D. induction 1 as [|e evs He Hevs IH]; intros x Hx; cbn zeta.
  - cbn [calls fst snd app map flat_map]. split; [destruct (unfold_events kids rest x); reflexivity|left; reflexivity].
  - assert (A1 : alive x = true) by (destruct Hx as [->| ->]; reflexivity).
    rewrite calls_cons by exact A1. cbn [fst snd app flat_map]. rewrite unfold_drop by assumption. rewrite calls_app.
    destruct e as [p i| | | |]; try destruct He. cbn [bad_call with_kids w_panics].
    pose proof (spread_stat kids p i x D) as S1.
    destruct (calls snd (spread kids (EvDrop p i)) x) as [e1 y]. cbn [snd] in S1.
    destruct (kid_panics kids i) eqn:K.
    + destruct (kid_bad kids i D K) as [B1 B2].
      assert (HA : y = Abort -> forall l, unfold_events kids l y = ([], Abort) /\
                calls snd (flat_map (spread kids) evs) y = ([], Abort)).
      { intros ->. intros l. split; [apply unfold_dead; reflexivity|apply calls_dead; reflexivity]. }
      destruct Hx as [->| ->]; cbn [after_panic].
      * rewrite <- S1 in B1. destruct B1 as [E|E].
        -- rewrite E. destruct (IH Unwind (or_intror eq_refl)) as [I1 I2]. cbn zeta in I1, I2. rewrite I1.
           destruct (calls snd (flat_map (spread kids) evs) Unwind) as [e2 z]. cbn [fst snd]. rewrite map_app, app_assoc.
           split; [reflexivity|exact I2].
        -- destruct (HA E (fst (calls (bad_call (with_kids w kids) t) evs Unwind) ++ rest)) as [U1 U2]. rewrite U1, U2.
           cbn [fst snd]. rewrite (unfold_dead kids rest Abort eq_refl). cbn [fst snd]. rewrite !app_nil_r. split; [reflexivity|right; reflexivity].
      * rewrite B2 in S1. destruct (HA S1 (fst (calls (bad_call (with_kids w kids) t) evs Abort) ++ rest)) as [U1 U2]. rewrite U1, U2.
        cbn [fst snd]. rewrite (unfold_dead kids rest Abort eq_refl). cbn [fst snd]. rewrite !app_nil_r. split; [reflexivity|right; reflexivity].
    + rewrite (kid_quiet kids i x D Hx K) in S1. subst y. destruct (IH x Hx) as [I1 I2]. cbn zeta in I1, I2. rewrite I1.
      destruct (calls snd (flat_map (spread kids) evs) x) as [e2 z]. cbn [fst snd]. rewrite map_app, app_assoc.
      split; [reflexivity|exact I2].
Qed.

Lemma with_kids_program w a kids : program w a -> program (with_kids w kids) a.
Proof. intros [H1 H2 H3 H4 H5 H6 H7]. constructor; assumption. Qed.
Lemma unfold_reads kids l : forall rest, unfold_events kids (map read_out l ++ rest) Run =
  (map (fun x => Own (read_out x)) l ++ fst (unfold_events kids rest Run), snd (unfold_events kids rest Run)).
Proof.
  induction l as [|x l IH]; intros rest; cbn [map app].
  - destruct (unfold_events kids rest Run). reflexivity.
  - unfold read_out at 1. cbn [unfold_events going]. rewrite IH. cbn [fst snd]. reflexivity.
Qed.
Lemma select_diag b fs n x : In x (select b fs (seq 0 n)) -> fst x = snd x.
Proof.
  unfold select. rewrite numbered_enum. generalize 0. revert n. induction (fields_list fs) as [|f l IH]; intros [|n] k; cbn; try contradiction.
  destruct (Bool.eqb (is_pinned f) b); cbn; [intros [<-|H]; [reflexivity|]|intros H]; exact (IH _ _ H).
Qed.
Lemma spread_fields kids b fs (g : nat * nat -> event) (h : visit * bool -> effect * bool) :
  (forall i, spread kids (g (i, i)) = map h (in_order opts [i] (kid kids i))) ->
  flat_map (spread kids) (map g (select b fs (seq 0 (length kids)))) = map h (of_fields opts b fs kids).
Proof.
  intros Hg. unfold of_fields. pose proof (fun x => select_diag b fs (length kids) x) as H.
  induction (select b fs (seq 0 (length kids))) as [|[i j] l IH]; [reflexivity|]. cbn [map flat_map].
  rewrite map_app, IH by (intros; apply H; right; assumption). f_equal. pose proof (H (i, j) (or_introl eq_refl)) as E. cbn in E. subst j.
  apply Hg.
Qed.
Lemma panickers_fields w kids b fs : (forall k, In k kids -> declared opts k) ->
  (panickers (with_kids w kids) (select b fs (seq 0 (length kids))) = 0 <-> filter snd (of_fields opts b fs kids) = []).
Proof.
  intros D. unfold of_fields, panickers. cbn [with_kids w_panics]. pose proof (fun x => select_diag b fs (length kids) x) as H.
  induction (select b fs (seq 0 (length kids))) as [|[i j] l IH]; [split; reflexivity|]. cbn [flat_map filter snd fst].
  specialize (IH (fun x Hx => H x (or_intror Hx))). pose proof (H (i, j) (or_introl eq_refl)) as E. cbn in E. subst j.
  rewrite filter_app, (kid_panics_count kids i [i] D). fold (kid kids i).
  destruct (filter snd (in_order opts [i] (kid kids i))) as [|a r]; cbn; [exact IH|]. split; discriminate.
Qed.

Lemma drops_forall {X} (g : X -> event) (l : list X) : (forall x, is_drop (g x)) -> Forall is_drop (map g l).
Proof. intros H. apply Forall_forall. intros e He. apply in_map_iff in He as (x & <- & _). apply H. Qed.
Lemma inside_fst l : map fst (map inside l) = map Inside (map fst l).
Proof. rewrite !map_map. reflexivity. Qed.

Lemma c74 w a v kids vp fs r : program w a -> has_proj POwn (w_item w) a = true ->
  value_of (w_item w) (mkUval v (seq 0 (length kids))) vp fs -> replaceable fs -> (forall k, In k kids -> declared opts k) ->
  filter snd (of_fields opts true fs kids) = [] ->
  replace_nested w v kids r =
  Some (Some (RProj (proj_name POwn a (name_of (w_item w)) :: vp) (taken fs (seq 0 (length kids)))),
        (map (fun x => Own (read_out x)) (select false fs (seq 0 (length kids))) ++
         map Inside (map fst (of_fields opts true fs kids)) ++ [Own (EvWrite r)], Run)).
Proof.
  intros Hp Hh Hv Hre D Hq. pose proof (proj2 (panickers_fields w kids true fs D) Hq) as Hz.
  unfold replace_nested. change (level v kids Run) with (holding (mkUval v (seq 0 (length kids))) [] Run).
  rewrite (c18 (with_kids w kids) a (mkUval v (seq 0 (length kids))) vp fs [] r (with_kids_program w a kids Hp) Hh Hv Hre Hz).
  cbn [holding s_trace u_ids app]. f_equal. f_equal. rewrite unfold_reads.
  set (evs := map dropped_in_place (select true fs (seq 0 (length kids)))).
  assert (F : Forall is_drop evs) by (apply drops_forall; intros x; exact Logic.I).
  destruct (unfold_calls w [] kids evs [EvWrite r] D F Run (or_introl eq_refl)) as [U _].
  assert (C : calls snd (flat_map (spread kids) evs) Run = (flat_map (spread kids) evs, Run)).
  { subst evs. rewrite (spread_fields kids true fs dropped_in_place inside) by reflexivity.
    destruct (calls_prefix snd (map inside (of_fields opts true fs kids)) Run) as (rest & E & HN).
    assert (S0 : snd (calls snd (map inside (of_fields opts true fs kids)) Run) = Run).
    { rewrite calls_stat by auto. rewrite flags_count, map_map.
      change (map (fun x => snd (inside x)) (of_fields opts true fs kids)) with (map snd (of_fields opts true fs kids)). rewrite <- (flags_count (of_fields opts true fs kids)), Hq. reflexivity. }
    rewrite S0 in HN. specialize (HN (or_introl eq_refl) ltac:(discriminate)). subst rest. rewrite app_nil_r in E.
    rewrite (surjective_pairing (calls snd (map inside (of_fields opts true fs kids)) Run)), S0, <- E. reflexivity. }
  assert (Cl : calls (bad_call (with_kids w kids) []) evs Run = (evs, Run)).
  { destruct (calls_prefix (bad_call (with_kids w kids) []) evs Run) as (rest & E & HN).
    assert (S0 : snd (calls (bad_call (with_kids w kids) []) evs Run) = Run).
    { rewrite calls_stat by auto. unfold panickers in Hz. rewrite Nat.add_0_r.
      assert (length (filter (bad_call (with_kids w kids) []) evs) = 0) as ->; [|reflexivity].
      rewrite <- Hz. subst evs. clear. induction (select true fs (seq 0 (length kids))) as [|y l IH]; [reflexivity|].
      cbn [map filter]. change (bad_call (with_kids w kids) [] (dropped_in_place y)) with (w_panics (with_kids w kids) (snd y)).
      destruct (w_panics (with_kids w kids) (snd y)); cbn [length]; congruence. }
    rewrite S0 in HN. specialize (HN (or_introl eq_refl) ltac:(discriminate)). subst rest. rewrite app_nil_r in E.
    rewrite (surjective_pairing (calls (bad_call (with_kids w kids) []) evs Run)), S0, <- E. reflexivity. }
  cbn zeta in U. rewrite Cl, C in U. cbn [fst snd] in U. rewrite U.
  subst evs. rewrite (spread_fields kids true fs dropped_in_place inside) by reflexivity. rewrite inside_fst. reflexivity.
Qed.
Lemma c74_panics w a v kids vp fs r : program w a -> has_proj POwn (w_item w) a = true ->
  value_of (w_item w) (mkUval v (seq 0 (length kids))) vp fs -> replaceable fs -> (forall k, In k kids -> declared opts k) ->
  filter snd (of_fields opts true fs kids) <> [] ->
  let made := calls snd (map inside (of_fields opts true fs kids) ++ map moved_out (of_fields opts false fs kids)) Run in
  replace_nested w v kids r =
  Some (None,
        (map (fun x => Own (read_out x)) (select false fs (seq 0 (length kids))) ++ map fst (fst made) ++
         match snd made with Abort => [] | _ => [Own (EvWrite r)] end, snd made)).
Proof.
  intros Hp Hh Hv Hre D Hq. cbn zeta.
  assert (Hz : 1 <= panickers (with_kids w kids) (select true fs (seq 0 (length kids)))).
  { destruct (panickers (with_kids w kids) (select true fs (seq 0 (length kids)))) eqn:E; [|lia].
    apply (panickers_fields w kids true fs D) in E. contradiction. }
  unfold replace_nested. change (level v kids Run) with (holding (mkUval v (seq 0 (length kids))) [] Run).
  destruct (c19_exact (with_kids w kids) a (mkUval v (seq 0 (length kids))) vp fs [] r (with_kids_program w a kids Hp) Hh Hv Hre Hz)
    as (s & -> & _ & ->).
  cbn [u_ids app]. f_equal. f_equal. rewrite unfold_reads.
  set (evs := map dropped_in_place (select true fs (seq 0 (length kids))) ++ map dropped_elsewhere (select false fs (seq 0 (length kids)))).
  assert (F : Forall is_drop evs) by (apply Forall_app; split; apply drops_forall; intros x; exact Logic.I).
  set (rest := match snd (calls (bad_call (with_kids w kids) []) evs Run) with Abort => [] | _ => [EvWrite r] end).
  destruct (unfold_calls w [] kids evs rest D F Run (or_introl eq_refl)) as [U V]. cbn zeta in U, V. rewrite U. cbn [fst snd].
  assert (E : flat_map (spread kids) evs = map inside (of_fields opts true fs kids) ++ map moved_out (of_fields opts false fs kids)).
  { subst evs. rewrite flat_map_app. f_equal; apply spread_fields; reflexivity. }
  rewrite E in V |- *. subst rest.
  set (c := calls snd (map inside (of_fields opts true fs kids) ++ map moved_out (of_fields opts false fs kids)) Run) in *.
  assert (NS : snd c <> Stuck) by (apply calls_not_stuck; discriminate).
  destruct (snd c) eqn:Ec.
  - destruct V as [V|V]; [|discriminate]. rewrite V. reflexivity.
  - destruct V as [V|V]; [|discriminate]. rewrite V. reflexivity.
  - rewrite unfold_dead by reflexivity. cbn [fst snd]. rewrite app_nil_r. reflexivity.
  - congruence.
Qed.
End Opts.
