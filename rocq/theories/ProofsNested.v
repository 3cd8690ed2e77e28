(** C66: values inside of values. *)
From Coq Require Import String List Bool Arith Lia.
From Verif Require Import Base Syntax ModelArgs ModelUtils ModelDerive ModelRun ModelHistory ModelUnpin ModelMeaning ModelTraits.
From Verif Require Import SpecArgs SpecDerive SpecExpand SpecRun SpecHistory SpecTraits SpecUnpin SpecNested.
From Verif Require Import ProofsArgs ProofsDerive ProofsRun ProofsHistory ProofsTraits ProofsTraitsProps ProofsUnpin.
Import ListNotations.
Open Scope list_scope.

(** As [sound_level], but the process may have been aborted. *)
Record fair (lv : level) : Prop := {
  fa_legal : legal (lv_se lv);
  fa_names : uncaptured (lv_se lv);
  fa_compiles : compiles (lv_se lv) (lv_holds lv) (lv_fails lv);
  fa_promise : promise_kept (lv_se lv) (lv_holds lv);
  fa_item : w_item (lv_world lv) = se_item (lv_se lv);
  fa_program : program (lv_world lv) (lv_args lv);
  fa_history : safe_history (lv_se lv) (lv_holds lv) (lv_s lv) (lv_l lv) (lv_world lv) (lv_hist lv);
  fa_unpin : ~ field_unpin lv (lv_decl lv);
  fa_place : in_place lv
}.
Lemma sound_fair lv : sound_level lv -> ~ field_unpin lv (lv_decl lv) -> fair lv.
Proof. intros [] H. constructor; auto. left. assumption. Qed.
Lemma sound_unpin lv : sound_level lv -> self_unpin lv -> field_unpin lv (lv_decl lv).
Proof.
  intros [S1 S2 S3 S4 S5 S6 S7 S8] Hu.
  apply (unpin_pinned (lv_se lv) (lv_holds lv) (lv_fails lv) (lv_args lv) (lv_s lv) (lv_l lv) (lv_decl lv)); auto.
  - rewrite <- S5. apply (pg_options _ _ S6).
  - destruct S8 as (u & vp & fs & _ & _ & Hv & Hn & Hp & _).
    apply (value_pinned (lv_se lv) (lv_world lv) u vp fs); auto. eapply nth_error_In. exact Hn.
Qed.
Lemma enclosed_fair t : enclosed t -> t <> [] /\ Forall fair t /\ (forall lv r, t = lv :: r -> ~ self_unpin lv).
Proof.
  induction t as [|lv t IH]; [intros []|]. destruct t as [|lv2 r].
  - intros (S & H). split; [discriminate|]. split; [constructor; [apply sound_fair; assumption|constructor]|].
    intros x y E. injection E as <- <-. intros Hu. apply H. apply sound_unpin; assumption.
  - intros (S & El & H). destruct (IH H) as (_ & F & N).
    assert (Hn : ~ field_unpin lv (lv_decl lv)) by (rewrite El; apply (N lv2 r eq_refl)).
    split; [discriminate|]. split; [constructor; [apply sound_fair; assumption|exact F]|].
    intros x y E. injection E as <- <-. intros Hu. apply Hn. apply sound_unpin; assumption.
Qed.

Lemma lv_steps lv h' : lv_step lv h' -> safe_steps (lv_se lv) (lv_holds lv) (lv_s lv) (lv_l lv) (lv_world lv) (lv_hist lv) h'.
Proof. intros H. eapply Usteps_step; [apply Usteps_refl|exact H]. Qed.
Lemma fair_step lv h' : fair lv -> lv_step lv h' -> exists evs, trace h' = trace (lv_hist lv) ++ evs /\
  ((Forall (untouched (lv_field lv) (lv_id lv)) evs /\ fair (with_hist lv h')) \/
   (exists e1 e2, evs = e1 ++ destroyed_here lv :: e2 /\ Forall (untouched (lv_field lv) (lv_id lv)) e1)).
Proof.
  intros F H. destruct (fa_place lv F) as [Hp|Ha].
  - destruct (c54 (lv_se lv) (lv_holds lv) (lv_fails lv) (lv_args lv) (lv_s lv) (lv_l lv) (lv_world lv) (lv_hist lv) h'
                (lv_field lv) (lv_id lv) (lv_decl lv) (fa_legal lv F) (fa_names lv F) (fa_compiles lv F) (fa_promise lv F) (fa_item lv F)
                (fa_program lv F) (fa_history lv F) Hp (fa_unpin lv F) (lv_steps lv h' H)) as (evs & Et & Ho).
    exists evs. split; [exact Et|]. destruct Ho as [[Hu Hpl]|Ho]; [left; split; [exact Hu|]|right; exact Ho].
    destruct F as [F1 F2 F3 F4 F5 F6 F7 F8 F9]. constructor; auto.
    destruct F7 as (u & vp & fs & Hv & Hn & Hs). exists u, vp, fs. split; [exact Hv|]. split; [exact Hn|].
    eapply Usteps_step; [exact Hs|exact H].
  - apply ustep_run in H. unfold aborted in Ha. congruence.
Qed.
Lemma untouched_not_destroyed lv l : Forall (untouched (lv_field lv) (lv_id lv)) l -> ~ In (destroyed_here lv) l.
Proof. intros H Hin. rewrite Forall_forall in H. destruct (H _ Hin) as [X _]. apply X. reflexivity. Qed.
Lemma first_split (x : event) a b c d : a ++ x :: b = c ++ x :: d -> ~ In x a -> ~ In x c -> a = c.
Proof.
  revert c. induction a as [|y a IH]; intros [|z c] E Ha Hc; cbn [app] in E.
  - reflexivity.
  - injection E as E1 _. elim Hc. left. auto.
  - injection E as E1 _. elim Ha. left. auto.
  - injection E as E1 E2. f_equal; [exact E1|]. apply IH; auto.
    + intros H. apply Ha. right. exact H.
    + intros H. apply Hc. right. exact H.
Qed.
Lemma fair_keeps lv h' evs : fair lv -> lv_step lv h' -> trace h' = trace (lv_hist lv) ++ evs -> ~ In (destroyed_here lv) evs ->
  Forall (untouched (lv_field lv) (lv_id lv)) evs /\ fair (with_hist lv h').
Proof.
  intros F H Et Hn. destruct (fair_step lv h' F H) as (evs' & Et' & Ho). rewrite Et in Et'. apply app_inv_head in Et'. subst evs'.
  destruct Ho as [Ho|(e1 & e2 & -> & _)]; [exact Ho|]. elim Hn. apply in_or_app. right. left. reflexivity.
Qed.
Lemma fair_drops lv h' e1 e2 : fair lv -> lv_step lv h' -> trace h' = trace (lv_hist lv) ++ e1 ++ destroyed_here lv :: e2 ->
  ~ In (destroyed_here lv) e1 -> Forall (untouched (lv_field lv) (lv_id lv)) e1.
Proof.
  intros F H Et Hn. destruct (fair_step lv h' F H) as (evs' & Et' & Ho). rewrite Et in Et'. apply app_inv_head in Et'. subst evs'.
  destruct Ho as [[Ho _]|(d1 & d2 & E & Hu)].
  - apply untouched_not_destroyed in Ho. elim Ho. apply in_or_app. right. left. reflexivity.
  - apply first_split in E; [subst d1; exact Hu|exact Hn|exact (untouched_not_destroyed lv d1 Hu)].
Qed.

Lemma undisturbed_at pre lv post evs : Forall (untouched (lv_field lv) (lv_id lv)) evs ->
  Forall (undisturbed (pre ++ lv :: post)) (at_depth (length pre) evs).
Proof.
  intros H. apply Forall_map. eapply Forall_impl; [|exact H]. intros e He x Hx. cbn [fst snd] in *.
  rewrite nth_error_app2, Nat.sub_diag in Hx by lia. injection Hx as <-. exact He.
Qed.
Lemma undisturbed_later pre lv h' post e : undisturbed (pre ++ with_hist lv h' :: post) e -> undisturbed (pre ++ lv :: post) e.
Proof.
  intros H x Hx. destruct (lt_eq_lt_dec (fst e) (length pre)) as [[Hl|He]|Hl].
  - apply H. rewrite nth_error_app1 in * by lia. exact Hx.
  - rewrite nth_error_app2 in Hx by lia. rewrite He, Nat.sub_diag in Hx. injection Hx as <-.
    apply (H (with_hist lv h')). rewrite nth_error_app2 by lia. rewrite He, Nat.sub_diag. reflexivity.
  - apply H. rewrite nth_error_app2 in * by lia. destruct (fst e - length pre) as [|k] eqn:Ek; [lia|]. exact Hx.
Qed.
Lemma undisturbed_deeper pre lv post e : undisturbed post e -> undisturbed (pre ++ lv :: post) (S (length pre) + fst e, snd e).
Proof.
  intros H x Hx. apply H. cbn [fst snd] in *. rewrite nth_error_app2 in Hx by lia.
  replace (S (length pre) + fst e - length pre) with (S (fst e)) in Hx by lia. exact Hx.
Qed.
Lemma leaf_later pre lv h' post e : leaf_destroyed (pre ++ with_hist lv h' :: post) e -> leaf_destroyed (pre ++ lv :: post) e.
Proof.
  intros (p & x & E & ->). destruct (exists_last (l := lv :: post) ltac:(discriminate)) as (q & y & Eq).
  destruct post as [|z post].
  - apply app_inj_tail in E. destruct E as [-> <-]. exists p, lv. split; [reflexivity|reflexivity].
  - destruct (exists_last (l := z :: post) ltac:(discriminate)) as (q2 & y2 & Eq2). rewrite Eq2 in *.
    replace (pre ++ with_hist lv h' :: q2 ++ [y2]) with ((pre ++ with_hist lv h' :: q2) ++ [y2]) in E by (rewrite <- app_assoc; reflexivity).
    apply app_inj_tail in E. destruct E as [<- <-]. exists (pre ++ lv :: q2), y2. rewrite <- app_assoc. split; [reflexivity|].
    rewrite !app_length. reflexivity.
Qed.
Lemma leaf_deeper pre lv post e : leaf_destroyed post e -> leaf_destroyed (pre ++ lv :: post) (S (length pre) + fst e, snd e).
Proof.
  intros (p & x & -> & ->). exists (pre ++ lv :: p), x. split; [rewrite <- app_assoc; reflexivity|]. cbn [fst snd].
  rewrite app_length. cbn [length]. f_equal. lia.
Qed.
Lemma later_refl lv : later lv lv.
Proof. exists (lv_hist lv). destruct lv. reflexivity. Qed.
Lemma later_all t : Forall2 later t t.
Proof. induction t; constructor; auto. apply later_refl. Qed.

Lemma nested_ok t evs o : nested t evs o -> Forall fair t ->
  match o with
  | Some t' => Forall (undisturbed t) evs /\ Forall2 later t t' /\ Forall fair t'
  | None => exists e1 e e2, evs = e1 ++ e :: e2 /\ Forall (undisturbed t) e1 /\ leaf_destroyed t e
  end.
Proof.
  intros H. induction H as [t|pre lv post h' evs rest o Hs Et Hn H IH|pre lv h' e1 e2 Hs Et Hn
                           |pre lv post h' e1 e2 inner o Hs Et Hn Hp H IH Hf]; intros F.
  - split; [constructor|]. split; [apply later_all|exact F].
  - apply Forall_app in F. destruct F as [F1 F2]. inversion F2 as [|? ? F3 F4]; subst.
    destruct (fair_keeps lv h' evs F3 Hs Et Hn) as [U F5].
    specialize (IH ltac:(apply Forall_app; split; [exact F1|constructor; assumption])).
    pose proof (undisturbed_at pre lv post evs U) as U2. destruct o as [t'|].
    + destruct IH as (I1 & I2 & I3). split; [|split; [|exact I3]].
      * apply Forall_app. split; [exact U2|]. eapply Forall_impl; [|exact I1]. intros e. apply undisturbed_later.
      * apply Forall2_app_inv_l in I2. destruct I2 as (p' & q' & P1 & P2 & ->). inversion P2 as [|? y ? r' P3 P4]; subst.
        apply Forall2_app; [exact P1|]. constructor; [|exact P4]. destruct P3 as (h2 & ->). exists h2. reflexivity.
    + destruct IH as (d1 & e & d2 & -> & I1 & I2). exists (at_depth (length pre) evs ++ d1), e, d2.
      split; [apply app_assoc|]. split; [apply Forall_app; split; [exact U2|]|exact (leaf_later _ _ _ _ _ I2)].
      eapply Forall_impl; [|exact I1]. intros x. apply undisturbed_later.
  - apply Forall_app in F. destruct F as [F1 F2]. inversion F2 as [|? ? F3 F4]; subst.
    pose proof (fair_drops lv h' e1 e2 F3 Hs Et Hn) as U. exists (at_depth (length pre) e1), (length pre, destroyed_here lv), [].
    split; [unfold at_depth; rewrite map_app; reflexivity|]. split; [apply undisturbed_at; exact U|]. exists pre, lv. auto.
  - apply Forall_app in F. destruct F as [F1 F2]. inversion F2 as [|? ? F3 F4]; subst.
    pose proof (fair_drops lv h' e1 e2 F3 Hs Et Hn) as U. specialize (IH F4). destruct o as [t'|].
    + exfalso. destruct IH as (_ & _ & I3). destruct (Hf t' eq_refl) as (x & r & -> & Ha & Hab).
      inversion I3 as [|? ? I4 _]; subst. destruct (fa_place x I4) as [(u & vp & fs & Hal & _)|Hx]; [congruence|contradiction].
    + destruct IH as (d1 & e & d2 & -> & I1 & I2).
      exists (at_depth (length pre) e1 ++ deeper (S (length pre)) d1), (S (length pre) + fst e, snd e),
        (deeper (S (length pre)) d2 ++ [(length pre, destroyed_here lv)]).
      split; [|split; [apply Forall_app; split; [apply undisturbed_at; exact U|]|apply leaf_deeper; exact I2]].
      * unfold deeper. rewrite map_app. cbn [map]. rewrite <- !app_assoc. reflexivity.
      * apply Forall_map. eapply Forall_impl; [|exact I1]. intros x. apply undisturbed_deeper.
Qed.

Lemma c66 t evs o : enclosed t -> nested t evs o ->
  match o with
  | Some t' => Forall (undisturbed t) evs /\ Forall2 later t t' /\ Forall in_place t'
  | None => exists e1 e e2, evs = e1 ++ e :: e2 /\ Forall (undisturbed t) e1 /\ leaf_destroyed t e
  end.
Proof.
  intros He Hn. destruct (enclosed_fair t He) as (_ & F & _). pose proof (nested_ok t evs o Hn F) as H.
  destruct o as [t'|]; [|exact H]. destruct H as (H1 & H2 & H3). split; [exact H1|]. split; [exact H2|].
  eapply Forall_impl; [|exact H3]. intros lv. apply fa_place.
Qed.
Lemma c66_unpin t lv r : enclosed t -> t = lv :: r -> ~ self_unpin lv.
Proof. intros He. apply (enclosed_fair t He). Qed.
