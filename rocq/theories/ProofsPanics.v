(** Exactly which destructors run when some of them panic. *)
From Coq Require Import String List Bool Arith Lia.
From Verif Require Import Base Syntax ModelArgs ModelUtils ModelDerive ModelRun.
From Verif Require Import SpecArgs SpecDerive SpecExpand SpecRun SpecPanics.
From Verif Require Import ProofsRun ProofsRunProj ProofsRunReplace ProofsRunDrop ProofsRunMain.
Import ListNotations.
Open Scope list_scope.

Lemma calls_dead {A} (bad : A -> bool) l x : alive x = false -> calls bad l x = ([], x).
Proof. destruct l; [reflexivity|]. destruct x; try discriminate; reflexivity. Qed.
Lemma calls_cons {A} (bad : A -> bool) c l x : alive x = true ->
  calls bad (c :: l) x = (c :: fst (calls bad l (if bad c then after_panic x else x)), snd (calls bad l (if bad c then after_panic x else x))).
Proof. intros H. cbn [calls]. destruct x; try discriminate; destruct (calls bad l _); reflexivity. Qed.
Lemma calls_app {A} (bad : A -> bool) l2 l1 : forall x,
  calls bad (l1 ++ l2) x = let (e1, y) := calls bad l1 x in let (e2, z) := calls bad l2 y in (e1 ++ e2, z).
Proof.
  induction l1 as [|c l1 IH]; intros x; cbn [app].
  - cbn [calls]. destruct (calls bad l2 x). reflexivity.
  - destruct (alive x) eqn:A1.
    + rewrite !calls_cons, IH by exact A1. destruct (calls bad l1 _) as [e1 y]. cbn [fst snd].
      destruct (calls bad l2 y). reflexivity.
    + rewrite !calls_dead by exact A1. reflexivity.
Qed.
Lemma calls_prefix {A} (bad : A -> bool) l : forall x, exists rest, l = fst (calls bad l x) ++ rest /\
  (x = Run \/ x = Unwind -> snd (calls bad l x) <> Abort -> rest = []).
Proof.
  induction l as [|c l IH]; intros x.
  - exists []. split; [reflexivity|reflexivity].
  - destruct (alive x) eqn:A1.
    + rewrite calls_cons by exact A1. cbn [fst snd]. destruct (IH (if bad c then after_panic x else x)) as (rest & E & H).
      exists rest. split; [cbn; congruence|]. intros Hx HA. destruct (bad c); [|exact (H Hx HA)].
      destruct Hx as [->| ->]; cbn [after_panic] in *; [apply H; auto|]. rewrite calls_dead in HA by reflexivity. destruct (HA eq_refl).
    + rewrite calls_dead by exact A1. exists (c :: l). split; [reflexivity|]. intros [->| ->]; discriminate.
Qed.
Lemma calls_stat {A} (bad : A -> bool) l : forall x, x = Run \/ x = Unwind ->
  snd (calls bad l x) = stat_after (length (filter bad l) + match x with Unwind => 1 | _ => 0 end).
Proof.
  induction l as [|c l IH]; intros x Hx.
  - destruct Hx as [->| ->]; reflexivity.
  - rewrite calls_cons by (destruct Hx as [->| ->]; reflexivity). cbn [snd filter]. destruct (bad c).
    + destruct Hx as [->| ->]; cbn [after_panic].
      * rewrite IH by auto. cbn [length]. f_equal. lia.
      * rewrite calls_dead by reflexivity. cbn [length snd]. rewrite Nat.add_1_r. reflexivity.
    + apply IH, Hx.
Qed.

Lemma calls_drops w t m : forall x, calls (bad_call w t) (map ev_drop m) x = drops w m x.
Proof.
  induction m as [|[p id] m IH]; intros x; [reflexivity|]. cbn [map drops]. destruct (alive x) eqn:A1.
  - rewrite calls_cons by exact A1. unfold ev_drop at 1. cbn [fst snd].
    change (bad_call w t (ev_drop (p, id))) with (w_panics w id). rewrite IH.
    change (after_panic x) with (bump x). destruct (drops w m _). reflexivity.
  - apply calls_dead, A1.
Qed.
Lemma calls_in_place w t l x : calls (bad_call w t) (map dropped_in_place l) x = drops w (map in_place l) x.
Proof. rewrite <- (calls_drops w t). rewrite map_map. reflexivity. Qed.
Lemma calls_moved w t l x : calls (bad_call w t) (map dropped_elsewhere l) x = drops w (map moved l) x.
Proof. rewrite <- (calls_drops w t). rewrite map_map. reflexivity. Qed.

Lemma c23_exact w a u t x : program w a -> ar_pinned_drop a = true -> x = Run \/ x = Unwind ->
  let made := calls (bad_call w t) (EvBody PlSelf :: map dropped_in_place (all_fields u)) x in
  s_trace (drop_self w (holding u t x)) = t ++ fst made /\ s_stat (drop_self w (holding u t x)) = snd made.
Proof.
  intros Hp Ha Hx. cbn zeta. assert (A1 : alive x = true) by (destruct Hx; subst; reflexivity).
  destruct (drop_self_run w a u t x Hp) as (sl & E & _). unfold glue in E. rewrite Ha, A1, in_place_all in E. cbn zeta in E.
  cbn [fst snd] in E. rewrite E. cbn [s_trace s_stat]. rewrite calls_cons by exact A1. rewrite calls_in_place, bumped_eq.
  split; reflexivity.
Qed.
Lemma c25_exact w a u t x : program w a -> ar_pinned_drop a = false -> x = Run \/ x = Unwind ->
  let made := calls (bad_call w t) (map dropped_in_place (all_fields u)) x in
  s_trace (drop_self w (holding u t x)) = t ++ fst made /\ s_stat (drop_self w (holding u t x)) = snd made.
Proof.
  intros Hp Ha Hx. cbn zeta.
  destruct (drop_self_run w a u t x Hp) as (sl & E & _). unfold glue in E. rewrite Ha, in_place_all in E. cbn zeta in E.
  rewrite E. cbn [s_trace s_stat]. rewrite calls_in_place. split; reflexivity.
Qed.
Lemma c23_exact_elsewhere w a u s : program w a -> ar_pinned_drop a = true -> s_stat s = Run \/ s_stat s = Unwind ->
  let made := calls (bad_call w (s_trace s)) (EvBody PlTemp :: map dropped_elsewhere (all_fields u)) (s_stat s) in
  drop_user w u s = mkSt (s_var s) (s_slots s) (s_trace s ++ fst made) (snd made).
Proof.
  intros Hp Ha Hx. cbn zeta. assert (A1 : alive (s_stat s) = true) by (destruct Hx as [->| ->]; reflexivity).
  rewrite (drop_user_run w a u s Hp). unfold glue. rewrite Ha, A1, temp_all. cbn zeta. cbn [fst snd].
  rewrite calls_cons by exact A1. rewrite calls_moved, bumped_eq. reflexivity.
Qed.
Lemma c25_exact_elsewhere w a u s : program w a -> ar_pinned_drop a = false -> s_stat s = Run \/ s_stat s = Unwind ->
  let made := calls (bad_call w (s_trace s)) (map dropped_elsewhere (all_fields u)) (s_stat s) in
  drop_user w u s = mkSt (s_var s) (s_slots s) (s_trace s ++ fst made) (snd made).
Proof.
  intros Hp Ha Hx. cbn zeta. rewrite (drop_user_run w a u s Hp). unfold glue. rewrite Ha, temp_all. cbn zeta.
  rewrite calls_moved. reflexivity.
Qed.

Lemma calls_not_stuck {A} (bad : A -> bool) l x : x <> Stuck -> snd (calls bad l x) <> Stuck.
Proof.
  intros H. destruct (alive x) eqn:A1.
  - rewrite calls_stat by (destruct x; try discriminate; auto). destruct (_ + _) as [|[|n]]; discriminate.
  - rewrite calls_dead by exact A1. exact H.
Qed.
Lemma c19_exact w a u vp fs t r :
  program w a -> has_proj POwn (w_item w) a = true -> value_of (w_item w) u vp fs -> replaceable fs ->
  1 <= panickers w (select true fs (u_ids u)) ->
  let made := calls (bad_call w t)
    (map dropped_in_place (select true fs (u_ids u)) ++ map dropped_elsewhere (select false fs (u_ids u))) Run in
  exists s, call_method w "project_replace" (RPin true PlSelf) [RUser r] (holding u t Run) = Some (None, s) /\
    s_stat s = snd made /\
    s_trace s = t ++ map read_out (select false fs (u_ids u)) ++ fst made ++
      match snd made with Abort => [] | _ => [EvWrite r] end.
Proof.
  intros Hp Hh Hv Hre Hz. cbn zeta. pose proof (run_replace w a u vp fs t r Hp Hh Hv Hre) as R. unfold replaced_spec in R. cbn zeta in R.
  set (pins := select true fs (u_ids u)) in *. set (rest := select false fs (u_ids u)) in *.
  set (res := call_method w _ _ _ _) in *. clearbody res.
  rewrite calls_app, calls_in_place.
  assert (S1 : snd (drops w (map in_place pins) Run) <> Run).
  { rewrite <- (calls_in_place w t), calls_stat by auto. rewrite Nat.add_0_r. unfold panickers in Hz.
    assert (length (filter (bad_call w t) (map dropped_in_place pins)) = length (filter (fun x => w_panics w (snd x)) pins)) as ->.
    { clear. induction pins as [|y l IH]; [reflexivity|]. cbn [map filter]. change (bad_call w t (dropped_in_place y)) with (w_panics w (snd y)).
      destruct (w_panics w (snd y)); cbn [length]; congruence. }
    destruct (length _) as [|[|n]]; [lia|discriminate|discriminate]. }
  assert (S2 : snd (drops w (map in_place pins) Run) <> Stuck).
  { rewrite <- (calls_in_place w t). apply calls_not_stuck. discriminate. }
  destruct (drops w (map in_place pins) Run) as [e1 y]. cbn [fst snd] in *. rewrite calls_moved.
  assert (S3 : snd (drops w (map moved rest) y) <> Stuck).
  { rewrite <- (calls_moved w t). apply calls_not_stuck, S2. }
  assert (R' : if alive (snd (drops w (map moved rest) y))
    then res = Some (None, holding r (((t ++ map read_out rest) ++ e1) ++ fst (drops w (map moved rest) y) ++ [EvWrite r])
                             (snd (drops w (map moved rest) y)))
    else exists sl, res = Some (None, mkSt (u_var u) sl (((t ++ map read_out rest) ++ e1) ++ fst (drops w (map moved rest) y))
                             (snd (drops w (map moved rest) y)))).
  { destruct y; [congruence| | |congruence]; destruct (alive _); try exact R; rewrite R, <- !app_assoc; reflexivity. }
  clear R. destruct (drops w (map moved rest) y) as [e2 z]. cbn [fst snd] in *.
  destruct (alive z) eqn:AZ.
  - rewrite R'. eexists. split; [reflexivity|]. cbn [holding s_stat s_trace]. split; [reflexivity|].
    rewrite <- !app_assoc. destruct z; try discriminate; reflexivity.
  - destruct R' as (sl & ->). eexists. split; [reflexivity|]. cbn [s_stat s_trace]. split; [reflexivity|].
    destruct z; try discriminate; [|congruence]. rewrite app_nil_r, <- !app_assoc. reflexivity.
Qed.
