(** Proofs about the destruction of nested values. *)
From Coq Require Import String List Bool Arith Lia.
From Verif Require Import Base Syntax ModelArgs ModelUtils ModelDerive ModelRun ModelDestroy.
From Verif Require Import SpecArgs SpecDerive SpecExpand SpecRun SpecPanics SpecDestroy.
From Verif Require Import ProofsRun ProofsRunMain ProofsRunReplace ProofsRunDrop ProofsPanics.
Import ListNotations.
Open Scope list_scope.

Lemma tree_rect' (P : tree -> Prop) :
  (forall p, P (Plain p)) -> (forall w v kids, (forall k, In k kids -> P k) -> P (Projected w v kids)) -> forall t, P t.
Proof.
  intros H1 H2. fix IH 1. intros [p|w v kids]; [apply H1|]. apply H2.
  induction kids as [|k kids IHk]; intros x; [intros []|]. intros [<-|Hx]; [apply IH|apply IHk, Hx].
Qed.

Section Opts.
Context (opts : world -> args).

Fixpoint fields_in_order (path : list nat) (i : nat) (l : list tree) : list (visit * bool) :=
  match l with [] => [] | k :: r => in_order opts (path ++ [i]) k ++ fields_in_order path (S i) r end.
Lemma in_order_projected path w v kids : in_order opts path (Projected w v kids) =
  (if ar_pinned_drop (opts w) then [(VEvent path (EvBody PlSelf), w_body_panics w [])] else []) ++ fields_in_order path 0 kids.
Proof.
  cbn [in_order]. f_equal. generalize 0. induction kids as [|k r IH]; intros n; [reflexivity|].
  cbn [fields_in_order]. f_equal. apply IH.
Qed.


Lemma fields_run path i l x : (forall k, In k l -> forall path x,
    destroy path k x = (map fst (fst (calls snd (in_order opts path k) x)), snd (calls snd (in_order opts path k) x))) ->
  destroy_fields destroy path i l x =
    (map fst (fst (calls snd (fields_in_order path i l) x)), snd (calls snd (fields_in_order path i l) x)).
Proof.
  revert i x. induction l as [|k r IH]; intros i x H; [reflexivity|]. cbn [destroy_fields fields_in_order].
  rewrite (H k (or_introl eq_refl)), calls_app. destruct (calls snd (in_order opts (path ++ [i]) k) x) as [e1 y]. cbn [fst snd].
  rewrite (IH (S i) y (fun k' Hk => H k' (or_intror Hk))).
  destruct (calls snd (fields_in_order path (S i) r) y) as [e2 z]. cbn [fst snd]. rewrite map_app. reflexivity.
Qed.
Lemma c73 t : declared opts t -> forall path x,
  destroy path t x = (map fst (fst (calls snd (in_order opts path t) x)), snd (calls snd (in_order opts path t) x)).
Proof.
  induction t as [p|w v kids IH] using tree_rect'; intros D path x.
  - destruct x, p; reflexivity.
  - inversion D as [|w' v' kids' Hp Dk]; subst. rewrite in_order_projected.
    destruct (going x) eqn:G.
    2:{ rewrite calls_dead by exact G. cbn [destroy]. rewrite G. reflexivity. }
    cbn [destroy]. rewrite G, calls_app.
    assert (forall e y, calls snd (if ar_pinned_drop (opts w) then [(VEvent path (EvBody PlSelf), w_body_panics w [])] else []) x = (e, y) ->
              map (VEvent path) (s_trace (call_drop w PlSelf (level v kids x))) = map fst e /\
              s_stat (call_drop w PlSelf (level v kids x)) = y) as H1.
    { intros e y. destruct (ar_pinned_drop (opts w)) eqn:E.
      - rewrite (call_drop_yes w (opts w) _ _ Hp E) by (destruct x; try discriminate; reflexivity). cbn [level s_trace s_stat app map].
        destruct x; try discriminate; cbn [calls snd]; intros [= <- <-]; split; try reflexivity; destruct (w_body_panics w []); reflexivity.
      - rewrite (call_drop_no w (opts w) _ _ Hp E). cbn [level s_trace s_stat calls map]. intros [= <- <-]. split; reflexivity. }
    destruct (calls snd (if ar_pinned_drop (opts w) then _ else _) x) as [e1 y]. destruct (H1 e1 y eq_refl) as [-> ->].
    rewrite fields_run by (intros k Hk; apply IH; [exact Hk|apply Dk, Hk]).
    destruct (calls snd (fields_in_order path 0 kids) y) as [e2 z]. cbn [fst snd]. rewrite map_app. reflexivity.
Qed.

(** ** Each place once *)
Definition visit_path (v : visit * bool) : list nat := match fst v with VPlain p | VEvent p _ => p end.

Lemma in_order_paths t : forall path v, In v (in_order opts path t) ->
  exists q, visit_path v = path ++ q /\
    match fst v with
    | VPlain _ => exists p, value_at t q = Some (Plain p)
    | VEvent _ e => e = EvBody PlSelf /\ exists w u kids, value_at t q = Some (Projected w u kids) /\ ar_pinned_drop (opts w) = true
    end.
Proof.
  induction t as [p|w u kids IH] using tree_rect'; intros path v.
  - cbn [in_order]. intros [<-|[]]. exists []. rewrite app_nil_r. split; [reflexivity|]. exists p. reflexivity.
  - rewrite in_order_projected, in_app_iff. intros [H|H].
    + destruct (ar_pinned_drop (opts w)) eqn:E; [|destruct H]. destruct H as [<-|[]]. exists []. rewrite app_nil_r.
      split; [reflexivity|]. split; [reflexivity|]. exists w, u, kids. split; [reflexivity|exact E].
    + assert (forall l i, (forall k n, nth_error l n = Some k -> nth_error kids (i + n) = Some k) ->
                In v (fields_in_order path i l) ->
                exists n k, nth_error kids n = Some k /\ In v (in_order opts (path ++ [n]) k)) as HF.
      { induction l as [|k r IHl]; intros i Hl; [intros []|]. cbn [fields_in_order]. rewrite in_app_iff. intros [A|A].
        - exists i, k. split; [|exact A]. rewrite <- (Nat.add_0_r i). apply Hl. reflexivity.
        - apply (IHl (S i)); [|exact A]. intros k' n Hn. rewrite Nat.add_succ_comm. apply Hl. exact Hn. }
      destruct (HF kids 0 (fun k n E => E) H) as (n & k & En & Hv).
      destruct (IH k (nth_error_In _ _ En) (path ++ [n]) v Hv) as (q & Eq & Hq).
      exists (n :: q). rewrite Eq, <- app_assoc. split; [reflexivity|]. cbn [value_at]. rewrite En. exact Hq.
Qed.
Lemma in_order_all t : forall path q,
  (forall p, value_at t q = Some (Plain p) -> exists b, In (VPlain (path ++ q), b) (in_order opts path t)) /\
  (forall w u kids, value_at t q = Some (Projected w u kids) -> ar_pinned_drop (opts w) = true ->
    exists b, In (VEvent (path ++ q) (EvBody PlSelf), b) (in_order opts path t)).
Proof.
  induction t as [p|w u kids IH] using tree_rect'; intros path [|i q]; cbn [value_at].
  - rewrite app_nil_r. split; [intros; exists p; left; reflexivity|discriminate].
  - split; discriminate.
  - rewrite app_nil_r. split; [discriminate|]. intros w' u' kids' [= <- <- <-] Ha. exists (w_body_panics w []). rewrite in_order_projected, Ha. left. reflexivity.
  - destruct (nth_error kids i) as [k|] eqn:E; [|split; discriminate].
    specialize (IH k (nth_error_In _ _ E) (path ++ [i]) q). rewrite <- app_assoc in IH. cbn [app] in IH.
    assert (forall v, In v (in_order opts (path ++ [i]) k) -> In v (in_order opts path (Projected w u kids))) as HI.
    { intros v Hv. rewrite in_order_projected. apply in_or_app. right.
      assert (forall l j n, nth_error l n = Some k -> In v (in_order opts (path ++ [j + n]) k) -> In v (fields_in_order path j l)) as HF.
      { induction l as [|k' r IHl]; intros j [|n] Hn Hi; try discriminate; cbn [fields_in_order]; apply in_or_app.
        - injection Hn as ->. left. rewrite Nat.add_0_r in Hi. exact Hi.
        - right. apply (IHl (S j) n Hn). rewrite Nat.add_succ_comm. exact Hi. }
      apply (HF kids 0 i E Hv). }
    destruct IH as [IH1 IH2]. split; [intros p Hp; destruct (IH1 p Hp) as (b & Hb); exists b; apply HI, Hb|].
    intros w' u' kids' Hv Ha. destruct (IH2 w' u' kids' Hv Ha) as (b & Hb). exists b. apply HI, Hb.
Qed.

Lemma nodup_app {A} (l1 l2 : list A) : NoDup l1 -> NoDup l2 -> (forall x, In x l1 -> ~ In x l2) -> NoDup (l1 ++ l2).
Proof.
  induction l1 as [|a l1 IH]; intros H1 H2 H; [exact H2|]. inversion H1; subst. cbn. constructor.
  - rewrite in_app_iff. intros [X|X]; [contradiction|]. exact (H a (or_introl eq_refl) X).
  - apply IH; [assumption|assumption|]. intros x Hx. apply H. right. exact Hx.
Qed.
Lemma fields_paths path l : forall i v, In v (fields_in_order path i l) ->
  exists n q, i <= n /\ visit_path v = path ++ n :: q.
Proof.
  induction l as [|k r IH]; intros i v; [intros []|]. cbn [fields_in_order]. rewrite in_app_iff. intros [H|H].
  - destruct (in_order_paths k _ _ H) as (q & -> & _). exists i, q. rewrite <- app_assoc. split; [lia|reflexivity].
  - destruct (IH _ _ H) as (n & q & L & E). exists n, q. split; [lia|exact E].
Qed.
Lemma in_order_nodup t : forall path, NoDup (map fst (in_order opts path t)).
Proof.
  induction t as [p|w u kids IH] using tree_rect'; intros path.
  - constructor; [intros []|constructor].
  - rewrite in_order_projected, map_app. apply nodup_app.
    + destruct (ar_pinned_drop (opts w)); [constructor; [intros []|]|]; constructor.
    + generalize 0. induction kids as [|k r IHr]; intros i; cbn [fields_in_order]; [constructor|]. rewrite map_app. apply nodup_app.
      * apply IH. left. reflexivity.
      * apply IHr. intros k' Hk. apply IH. right. exact Hk.
      * intros v H1 H2. apply in_map_iff in H1 as (v1 & E1 & H1). apply in_map_iff in H2 as (v2 & E2 & H2).
        destruct (in_order_paths k _ _ H1) as (q & E & _). destruct (fields_paths _ _ _ _ H2) as (n & q' & L & E').
        unfold visit_path in E, E'. rewrite E2, <- E1 in E'. rewrite E, <- app_assoc in E'. apply app_inv_head in E'.
        injection E' as -> _. lia.
    + intros v H1 H2. destruct (ar_pinned_drop (opts w)); [|destruct H1]. destruct H1 as [<-|[]].
      apply in_map_iff in H2 as (v2 & E2 & H2). destruct (fields_paths _ _ _ _ H2) as (n & q & _ & E).
      unfold visit_path in E. rewrite E2 in E. cbn in E.
      apply (f_equal (@length nat)) in E. rewrite app_length in E. cbn in E. lia.
Qed.

(** ** Every destructor once *)
Lemma c73_once t path x : declared opts t -> NoDup (fst (destroy path t x)).
Proof.
  intros D. rewrite (c73 t D path x). cbn [fst].
  destruct (calls_prefix snd (in_order opts path t) x) as (rest & E & _). pose proof (in_order_nodup t path) as N. rewrite E, map_app in N.
  revert N. generalize (map fst (fst (calls snd (in_order opts path t) x))). clear. intros l N. induction l as [|a l IH]; [constructor|].
  cbn in N. inversion N; subst. constructor; [intros H; apply H1, in_or_app; left; exact H|apply IH; assumption].
Qed.
Lemma c73_who t x : declared opts t -> x = Run \/ x = Unwind -> snd (destroy [] t x) <> Abort -> forall v,
  In v (fst (destroy [] t x)) <->
  match v with
  | VPlain q => exists p, value_at t q = Some (Plain p)
  | VEvent q e => e = EvBody PlSelf /\
      exists w u kids, value_at t q = Some (Projected w u kids) /\ ar_pinned_drop (opts w) = true
  end.
Proof.
  intros D Hx NA v. rewrite (c73 t D [] x) in NA |- *. cbn [fst snd] in NA |- *.
  destruct (calls_prefix snd (in_order opts [] t) x) as (rest & E & HN). rewrite (HN Hx NA), app_nil_r in E. rewrite <- E.
  split.
  - intros H. apply in_map_iff in H as (v1 & E1 & H). destruct (in_order_paths t [] v1 H) as (q & Eq & Hv).
    unfold visit_path in Eq. rewrite E1 in Eq, Hv. cbn [app] in Eq. destruct v; subst; exact Hv.
  - intros H.
    assert (exists b, In (v, b) (in_order opts [] t)) as (b & Hb); [|apply in_map_iff; exists (v, b); split; [reflexivity|exact Hb]].
    destruct v as [q|q e].
    + destruct H as (p & H). exact (proj1 (in_order_all t [] q) p H).
    + destruct H as (-> & w & u & kids & H & Ha). exact (proj2 (in_order_all t [] q) w u kids H Ha).
Qed.

(** ** One level: the same as [drop_self] *)
Lemma set_nth_app {A} (l : list A) y z r : set_nth (length l) y (l ++ z :: r) = l ++ y :: r.
Proof. induction l as [|a l IH]; cbn; [reflexivity|]. f_equal. exact IH. Qed.
Lemma nth_error_len {A} (l : list A) z r : nth_error (l ++ z :: r) (length l) = Some z.
Proof. induction l as [|a l IH]; cbn; [reflexivity|exact IH]. Qed.
Lemma glue_one w ps : forall v pre t x, (forall n p, nth_error ps n = Some p -> w_panics w (length pre + n) = p) ->
  let s := drop_slots w (length pre) (length ps) (mkSt v (pre ++ map Some (seq (length pre) (length ps))) t x) in
  let r := destroy_fields destroy [] (length pre) (map Plain ps) x in
  s_stat s = snd r /\ exists l, s_trace s = t ++ map (fun i => EvDrop (PlField i) i) l /\ fst r = map (fun i => VPlain [i]) l.
Proof.
  induction ps as [|p ps IH]; intros v pre t x Hp; cbn [length drop_slots map destroy_fields].
  - split; [reflexivity|]. exists []. split; [symmetry; apply app_nil_r|reflexivity].
  - cbn [seq map]. unfold drop_slot. cbn [live s_stat s_slots s_var s_trace]. rewrite nth_error_len, set_nth_app.
    pose proof (Hp 0 p eq_refl) as H0. rewrite Nat.add_0_r in H0.
    assert (forall n q, nth_error ps n = Some q -> w_panics w (length (pre ++ [@None nat]) + n) = q) as HS.
    { intros n q Hn. rewrite app_length, <- Nat.add_assoc. apply Hp. exact Hn. }
    pose proof (fun t' x' => IH v (pre ++ [None]) t' x' HS) as IH'.
    rewrite app_length in IH'. cbn [length] in IH'. rewrite Nat.add_1_r in IH'.
    assert (forall y, (pre ++ [None]) ++ y = pre ++ @None nat :: y) as EA by (intros y; rewrite <- app_assoc; reflexivity).
    assert (forall y : list (option nat), pre ++ Some (length pre) :: y = (pre ++ [Some (length pre)]) ++ y) as EB
      by (intros y; rewrite <- app_assoc; reflexivity).
    destruct (going x) eqn:G.
    + assert (live (mkSt v (pre ++ Some (length pre) :: map Some (seq (S (length pre)) (length ps))) t x) = true) as ->
        by (destruct x; try discriminate; reflexivity).
      unfold drop_id.
      assert (forall sl, live (mkSt v sl t x) = true) as HL by (intros; destruct x; try discriminate; reflexivity). rewrite HL.
      rewrite H0. unfold add_event. cbn zeta. cbn [s_var s_slots s_trace s_stat].
      set (x1 := if p then next_panic x else x).
      assert (forall sl tr, (if p then panic (mkSt v sl tr x) else mkSt v sl tr x) = mkSt v sl tr x1) as ->.
      { intros. subst x1. destruct p; [|reflexivity]. destruct x; try discriminate; reflexivity. }
      assert (destroy ([] ++ [length pre]) (Plain p) x = ([VPlain [length pre]], x1)) as ->
        by (cbn [destroy app]; rewrite G; reflexivity).
      specialize (IH' (t ++ [EvDrop (PlField (length pre)) (length pre)]) x1). rewrite EA in IH'.
      destruct IH' as (E1 & l & E2 & E3). destruct (destroy_fields destroy [] (S (length pre)) (map Plain ps) x1) as [e z].
      split; [exact E1|]. exists (length pre :: l). split; [rewrite E2, <- app_assoc; reflexivity|].
      cbn [fst] in E3 |- *. rewrite E3. reflexivity.
    + assert (forall sl, live (mkSt v sl t x) = false) as HL by (intros; destruct x; try discriminate; reflexivity).
      rewrite HL. clear IH IH'.
      assert (forall n k s, s_stat s = x -> drop_slots w k n s = s) as HD.
      { induction n as [|n IHn]; intros k s Es; [reflexivity|]. cbn [drop_slots]. unfold drop_slot.
        assert (live s = false) as -> by (unfold live; rewrite Es; destruct x; try discriminate; reflexivity).
        apply IHn, Es. }
      rewrite HD by reflexivity.
      assert (forall l i, destroy_fields destroy [] i (map Plain l) x = ([], x)) as HF.
      { induction l as [|q l IHl]; intros i; [reflexivity|]. cbn [destroy_fields map].
        cbn [destroy]. rewrite G, IHl. reflexivity. }
      cbn [destroy]. rewrite G, HF. split; [reflexivity|]. exists []. split; [symmetry; apply app_nil_r|reflexivity].
Qed.
Lemma c73_one_level w v ps x : program w (opts w) -> x = Run \/ x = Unwind ->
  (forall n p, nth_error ps n = Some p -> w_panics w n = p) ->
  let s := drop_self w (holding (mkUval v (seq 0 (length ps))) [] x) in
  let r := destroy [] (Projected w v (map Plain ps)) x in
  s_stat s = snd r /\
  s_trace s = map (fun v => match v with VPlain q => EvDrop (PlField (hd 0 q)) (hd 0 q) | VEvent _ e => e end) (fst r).
Proof.
  intros Hp Hx Hps. cbn zeta.
  assert (going x = true) as G by (destruct Hx as [->| ->]; reflexivity). cbn [destroy]. rewrite G.
  unfold drop_self, level, holding. cbn [u_var u_ids s_slots]. rewrite !map_length, seq_length.
  assert (exists t y, call_drop w PlSelf (mkSt v (map Some (seq 0 (length ps))) [] x) =
            mkSt v (map Some (seq 0 (length ps))) t y) as (t & y & ->).
  { destruct (ar_pinned_drop (opts w)) eqn:E.
    - rewrite (call_drop_yes w (opts w) _ _ Hp E) by (destruct Hx as [->| ->]; reflexivity). eauto.
    - rewrite (call_drop_no w (opts w) _ _ Hp E). eauto. }
  cbn [s_stat s_trace]. pose proof (glue_one w ps v [] t y Hps) as Gl. cbn zeta in Gl. cbn [length app] in Gl.
  destruct Gl as (E1 & l & E2 & E3). destruct (destroy_fields destroy [] 0 (map Plain ps) y) as [e z].
  cbn [fst snd] in *. split; [exact E1|]. rewrite E2, E3, map_app, !map_map. cbn [hd]. f_equal. symmetry. apply map_id.
Qed.
End Opts.
