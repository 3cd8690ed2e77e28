(** Several threads under the rules of Tree Borrows. *)
From Coq Require Import String Ascii List Bool Arith Lia.
From Verif Require Import Base Syntax ModelArgs ModelUtils ModelDerive ModelRun ModelAlias ModelTree.
From Verif Require Import SpecArgs SpecDerive SpecExpand SpecRun SpecAlias SpecThreads SpecTree.
From Verif Require Import ProofsAlias ProofsAliasMain ProofsThreads ProofsThreadsRun ProofsTree ProofsTreeMain ProofsTreeSession.
Import ListNotations.
Open Scope string_scope.
Open Scope list_scope.

(** ** One part *)
(** [T] has, over [T0], frozen tags between [lo] and [hi]; those in [pend] may be
    protected. *)
Definition tnew (lo hi : nat) (pend : list nat) (x : node) : Prop :=
  lo <= nd_tag x < hi /\ nd_state x = TFrozen /\ (nd_prot x = true -> In (nd_tag x) pend).
Definition tover (lo hi : nat) (pend : list nat) (T0 T : tree) : Prop := exists ps xs,
  tr_ptrs T = ps ++ tr_ptrs T0 /\ tr_nodes T = xs ++ tr_nodes T0 /\ map nd_tag xs = map fst ps /\ NoDup (map fst ps) /\
  Forall (fun x => Forall (fun u => u < hi) (snd x)) ps /\ Forall (tnew lo hi pend) xs.
Lemma tover_refl lo hi T0 : tover lo hi [] T0 T0.
Proof. exists [], []. repeat split; constructor. Qed.
Lemma tover_weak lo hi pend pend' T0 T : incl pend pend' -> tover lo hi pend T0 T -> tover lo hi pend' T0 T.
Proof.
  intros Hi (ps & xs & A & B & C & D & E & F). exists ps, xs. repeat split; auto.
  eapply Forall_impl; [|exact F]. intros x (F1 & F2 & F3). repeat split; auto; apply F1.
Qed.
Lemma news_read P xs : Forall (fun x => nd_state x = TFrozen) xs -> all_nodes (node_access false P) xs = Some xs.
Proof.
  intros H. apply all_nodes_same. intros x Hx. rewrite Forall_forall in H. specialize (H x Hx). destruct x as [t st pr]. cbn in H. subst st.
  unfold node_access. cbn. destruct (elem t P); reflexivity.
Qed.
Lemma tover_states lo hi pend xs : Forall (tnew lo hi pend) xs -> Forall (fun x => nd_state x = TFrozen) xs.
Proof. intros H. eapply Forall_impl; [|exact H]. intros x (_ & E & _). exact E. Qed.
(** Reading through [t] does nothing if it does nothing to the old tags. *)
Definition treads (t : nat) (T0 T : tree) : Prop :=
  exists P, tree_path t (tr_ptrs T) = Some P /\ all_nodes (node_access false P) (tr_nodes T0) = Some (tr_nodes T0).
Lemma tover_reads lo hi pend T0 T t : tover lo hi pend T0 T -> (tree_access false t T = Some T <-> treads t T0 T).
Proof.
  intros (ps & xs & A & B & C & D & E & F). pose proof (fun P => news_read P xs (tover_states _ _ _ _ F)) as Hx. split.
  - intros H. destruct (access_inv _ _ _ _ H) as (P & o & EP & Eo & ET). exists P. split; [exact EP|].
    assert (o = tr_nodes T) as -> by (rewrite ET; reflexivity). rewrite B, all_nodes_app, Hx in Eo.
    destruct (all_nodes (node_access false P) (tr_nodes T0)) as [z|]; [|discriminate]. injection Eo as Eo. apply app_inv_head in Eo. congruence.
  - intros (P & EP & Eo). rewrite (access_of false t T P (tr_nodes T) EP); [destruct T; reflexivity|].
    rewrite B, all_nodes_app, Hx, Eo. reflexivity.
Qed.
Lemma fresh_path n t P (ps : list (nat * list nat)) : ~ In n (map fst ps) -> tree_path t ps = Some P -> n <> t.
Proof. intros H E <-. apply H. apply path_in in E. apply (in_map fst) in E. exact E. Qed.
Lemma tover_tag lo hi pend T0 T t n prot : unused_in lo T0 -> tover lo hi pend T0 T -> lo <= n < hi -> ~ In n (map fst (tr_ptrs T)) ->
  tree_access false t T = Some T ->
  exists T', tree_retag PkShared prot t n T = Some T' /\ tover lo hi (if prot then n :: pend else pend) T0 T' /\
    (forall r, treads r T0 T -> treads r T0 T') /\ treads n T0 T' /\ map fst (tr_ptrs T') = n :: map fst (tr_ptrs T) /\
    (forall r, r <> n -> tree_path r (tr_ptrs T') = tree_path r (tr_ptrs T)).
Proof.
  intros Hu Ho Hn Hf Ha. destruct (proj1 (tover_reads _ _ _ _ _ _ Ho) Ha) as (P & EP & Eo).
  destruct (access_inv _ _ _ _ Ha) as (P2 & o & EP2 & Eo2 & ET). rewrite EP in EP2. injection EP2 as <-.
  assert (o = tr_nodes T) as -> by (rewrite ET; reflexivity).
  destruct Ho as (ps & xs & A & B & C & D & E & F).
  exists (mkTree ((n, n :: P) :: tr_ptrs T) (mkNode n TFrozen prot :: tr_nodes T)). cbn [tr_ptrs tr_nodes]. split; [|split; [|split; [|split; [|split]]]].
  - unfold tree_retag. rewrite EP, Eo2. reflexivity.
  - exists ((n, n :: P) :: ps), (mkNode n TFrozen prot :: xs). cbn [tr_ptrs tr_nodes map fst snd nd_tag app]. rewrite A, B, C. split; [reflexivity|]. split; [reflexivity|].
    split; [reflexivity|]. rewrite A, map_app in Hf. split; [constructor; [|exact D]; intros Hi; apply Hf, in_or_app; left; exact Hi|]. split.
    + constructor; [|exact E]. cbn [snd]. constructor; [lia|]. apply path_in in EP. rewrite A in EP. apply in_app_or in EP. destruct EP as [EP|EP].
      * rewrite Forall_forall in E. exact (E _ EP).
      * eapply Forall_impl; [|exact (proj2 (proj1 Hu _ _ EP))]. intros u. cbn. lia.
    + constructor; [|eapply Forall_impl; [|exact F]; intros x (F1 & F2 & F3); repeat split; auto; try apply F1; intros Hp; destruct prot; [right|]; auto].
      split; [exact Hn|]. split; [reflexivity|]. cbn. intros ->. left. reflexivity.
  - intros r (Q & EQ & Er). exists Q. split; [|exact Er]. cbn [tr_ptrs tree_path]. pose proof (fresh_path n r Q _ Hf EQ) as Hne.
    apply Nat.eqb_neq in Hne. rewrite Hne. exact EQ.
  - exists (n :: P). split; [cbn [tr_ptrs tree_path]; rewrite Nat.eqb_refl; reflexivity|].
    change (n :: P) with ([n] ++ P). rewrite (ext_low lo [n] P); [exact Eo|constructor; [lia|constructor]|exact (proj2 Hu)].
  - reflexivity.
  - intros r Hr. cbn [tree_path]. destruct (Nat.eqb n r) eqn:En; [|reflexivity]. apply Nat.eqb_eq in En. congruence.
Qed.
Lemma unprotect_tag r x : nd_tag (unprotect r x) = nd_tag x.
Proof. unfold unprotect. destruct (Nat.eqb _ _); reflexivity. Qed.
Lemma unprotect_low r n l : (forall x, In x l -> nd_tag x < n) -> n <= r -> map (unprotect r) l = l.
Proof.
  intros H Hr. induction l as [|x l IH]; [reflexivity|]. cbn [map]. rewrite IH by (intros y Hy; apply H; right; exact Hy). f_equal.
  unfold unprotect. assert (Nat.eqb (nd_tag x) r = false) as ->; [|reflexivity]. apply Nat.eqb_neq. pose proof (H x (or_introl eq_refl)). lia.
Qed.
Lemma tover_release lo hi pend1 r pend2 T0 T : unused_in lo T0 -> tover lo hi (pend1 ++ r :: pend2) T0 T -> lo <= r ->
  (tree_path r (tr_ptrs T) <> None -> tree_access false r T = Some T) ->
  exists T', tree_release r T = Some T' /\ tover lo hi (pend1 ++ pend2) T0 T' /\ tr_ptrs T' = tr_ptrs T.
Proof.
  intros Hu Ho Hr Hrd. pose proof (tover_reads lo hi _ T0 T r Ho) as Hrr. destruct Ho as (ps & xs & A & B & C & D & E & F).
  assert (Keep : (forall x, In x xs -> nd_tag x = r -> nd_prot x = false) -> tover lo hi (pend1 ++ pend2) T0 T).
  { intros H. exists ps, xs. repeat split; auto. rewrite Forall_forall in *. intros x Hx. destruct (F x Hx) as (F1 & F2 & F3). split; [exact F1|]. split; [exact F2|].
    intros Hp. specialize (F3 Hp). apply in_app_or in F3. apply in_or_app. destruct F3 as [F3|[F3|F3]]; [left; exact F3| |right; exact F3].
    rewrite (H x Hx (eq_sym F3)) in Hp. discriminate. }
  unfold tree_release. destruct (find_node r T) as [x|] eqn:Ef.
  - unfold find_node in Ef. pose proof (find_some _ _ Ef) as [Hin Hx]. apply Nat.eqb_eq in Hx.
    assert (Hxs : In x xs).
    { rewrite B in Hin. apply in_app_or in Hin. destruct Hin as [Hin|Hin]; [exact Hin|]. pose proof (proj2 Hu x Hin). lia. }
    destruct (tree_path r (tr_ptrs T)) as [P|] eqn:EP.
    + destruct (nd_prot x) eqn:Hp.
      * rewrite Forall_forall in F. destruct (F x Hxs) as (F1 & F2 & F3). rewrite F2.
        specialize (Hrd ltac:(discriminate)). destruct (access_inv _ _ _ _ Hrd) as (P2 & o & EP2 & Eo & ET). rewrite EP in EP2. injection EP2 as <-.
        assert (o = tr_nodes T) as -> by (rewrite ET; reflexivity).
        rewrite (all_nodes_same _ (tr_nodes T)).
        2:{ intros y Hy. destruct (below r T y); [reflexivity|]. apply all_nodes_rel in Eo. clear -Eo Hy.
            remember (tr_nodes T) as l eqn:El in Eo at 1. remember (tr_nodes T) as l' eqn:El' in Eo. assert (l = l') as -> by congruence. clear El.
            rewrite <- El' in Hy. clear El'. revert y Hy. remember l' as l2 eqn:H in Eo at 1. assert (Hg : l2 = l') by exact H. clear H.
            revert Hg. induction Eo as [|a b l l0 Hab _ IH]; intros Hg y Hy; [destruct Hy|]. injection Hg as -> ->. destruct Hy as [<-|Hy]; [exact Hab|].
            apply IH; auto. }
        eexists. split; [reflexivity|]. cbn [tr_ptrs]. split; [|reflexivity].
        exists ps, (map (unprotect r) xs). cbn [tr_ptrs tr_nodes]. split; [exact A|]. split.
        { rewrite B, map_app, (unprotect_low r lo (tr_nodes T0) (proj2 Hu) Hr). reflexivity. }
        split; [rewrite map_map, (map_ext _ _ (unprotect_tag r)); exact C|]. split; [exact D|]. split; [exact E|].
        apply Forall_map. apply Forall_forall. intros y Hy. destruct (F y Hy) as (G1 & G2 & G3). unfold unprotect.
        destruct (Nat.eqb (nd_tag y) r) eqn:Ey; (split; [exact G1|split; [exact G2|]]); [discriminate|].
        intros Hpy. specialize (G3 Hpy). apply Nat.eqb_neq in Ey. apply in_app_or in G3. apply in_or_app.
        destruct G3 as [G3|[G3|G3]]; [left; exact G3|congruence|right; exact G3].
      * exists T. split; [reflexivity|]. split; [|reflexivity]. apply Keep. intros y Hy Ey.
        assert (Nd : NoDup (map nd_tag xs)) by (rewrite C; exact D). assert (y = x); [|congruence].
        clear -Nd Hy Hxs Ey Hx. induction xs as [|z xs IH]; [destruct Hy|]. cbn in Nd. inversion Nd as [|? ? N1 N2]; subst.
        destruct Hy as [->|Hy], Hxs as [->|Hxs]; auto.
        -- elim N1. rewrite Ey. apply in_map. exact Hxs.
        -- elim N1. rewrite <- Ey. apply in_map. exact Hy.
    + exfalso. assert (In r (map fst ps)) by (rewrite <- C, <- Hx; apply in_map; exact Hxs). apply in_map_iff in H. destruct H as ((r' & Q) & Er & HQ). cbn in Er. subst r'.
      rewrite A in EP. clear -EP HQ. induction ps as [|[u p] ps IH]; [destruct HQ|]. cbn in EP. destruct (Nat.eqb u r) eqn:Eu; [discriminate|].
      destruct HQ as [HQ|HQ]; [injection HQ as -> ->; rewrite Nat.eqb_refl in Eu; discriminate|exact (IH EP HQ)].
  - assert (G : tover lo hi (pend1 ++ pend2) T0 T).
    { apply Keep. intros y Hy Ey. pose proof (List.find_none _ _ Ef y) as N. rewrite B in N. specialize (N (in_or_app _ _ _ (or_introl Hy))). cbn in N.
      rewrite Ey, Nat.eqb_refl in N. discriminate. }
    exists T. split; [reflexivity|]. split; [exact G|reflexivity].
Qed.

(** ** All threads together *)
Definition toverall (lo hi : nat) (pend : list nat) (mem m : forest) : Prop := forall l, tover lo hi pend (mem l) (m l).
(** The tags that the threads will make. *)
Definition future (sts : list thread) : list nat := flat_map (fun st => seq (th_next st) (th_end st - th_next st)) sts.
Definition tfresh (lo hi : nat) (m : forest) (sts : list thread) : Prop :=
  NoDup (future sts) /\ forall t, In t (future sts) -> lo <= t < hi /\ forall l, ~ In t (map fst (tr_ptrs (m l))).
Definition waiting (r : nat) (m : forest) : Prop :=
  forall l, tree_path r (tr_ptrs (m l)) <> None -> tree_access false r (m l) = Some (m l).
Definition tthread_ok (lo : nat) (m : forest) (th : thread) (os : list op) : Prop :=
  shared_code (th_live th) (th_pend th) (th_next th) os (th_end th) /\
  (forall r, In r (th_pend th) -> lo <= r /\ waiting r m) /\ (forall p t, In (p, t) (th_live th) -> tree_readable t p m).
Lemma future_split y1 y y2 : future (y1 ++ y :: y2) = future y1 ++ seq (th_next y) (th_end y - th_next y) ++ future y2.
Proof. unfold future. rewrite flat_map_app. reflexivity. Qed.
Lemma tall_run lo hi mem : unused lo mem -> forall ths os, interleaved ths os -> forall sts m,
  Forall2 (fun os th => tthread_ok lo m th os) ths sts -> toverall lo hi (flat_map th_pend sts) mem m -> tfresh lo hi m sts ->
  exists m', grows os m m' /\ toverall lo hi [] mem m' /\ (forall r p, tree_readable r p m -> tree_readable r p m').
Proof.
  intros Hu ths os H. induction H as [ths Hd|ths1 o th ths2 os H IH]; intros sts m Hs Ho Hf.
  - exists m. split; [apply grows_nil|]. split; [|auto].
    assert (E : flat_map th_pend sts = []).
    { clear Ho Hf. revert Hd. induction Hs as [|os th ths sts Hx Hs IH]; intros Hd; [reflexivity|]. cbn.
      rewrite IH by (intros y Hy; apply Hd; right; exact Hy). destruct Hx as [Hc _].
      rewrite (Hd os (or_introl eq_refl)) in Hc. inversion Hc. reflexivity. }
    rewrite E in Ho. exact Ho.
  - apply Forall2_middle in Hs. destruct Hs as (y1 & y & y2 & -> & Hs1 & (Hc & Hp & Hl) & Hs2).
    rewrite flat_map_app in Ho. cbn [flat_map] in Ho. destruct y as [live pend n n']. cbn [th_live th_pend th_next th_end] in *.
    assert (Step : exists m1 y', grows [o] m m1 /\ (forall r p, tree_readable r p m -> tree_readable r p m1) /\
      (forall r, waiting r m -> waiting r m1) /\ tthread_ok lo m1 y' th /\
      toverall lo hi (flat_map th_pend y1 ++ th_pend y' ++ flat_map th_pend y2) mem m1 /\ tfresh lo hi m1 (y1 ++ y' :: y2)).
    { inversion Hc as [|? ? ? p q t ? ? Hin Hi Hc'|? ? ? prot p q t ? ? Hin Hi Hc'|? r pend' ? ? ? Hc']; subst.
      - exists m, (mkThread live pend n n'). split; [|split; [auto|split; [auto|split; [|split; [exact Ho|]]]]].
        + intros l. cbn. destruct (covers q l) eqn:C; [|reflexivity]. rewrite (Hl p t Hin l (inside_covers _ _ _ Hi C)). reflexivity.
        + repeat split; cbn; auto; apply (Hp r H0).
        + exact Hf.
      - pose proof (code_order _ _ _ _ _ Hc') as On.
        assert (Ef : future (y1 ++ mkThread live pend n n' :: y2) = future y1 ++ n :: seq (S n) (n' - S n) ++ future y2).
        { rewrite future_split. cbn [th_next th_end]. assert (n' - n = S (n' - S n)) as -> by lia. reflexivity. }
        destruct Hf as [Nd Hf]. rewrite Ef in Nd, Hf.
        assert (Hn : lo <= n < hi /\ forall l, ~ In n (map fst (tr_ptrs (m l)))) by (apply Hf, in_or_app; right; left; reflexivity).
        destruct Hn as [Hn Hnf]. set (pends := fun z => flat_map th_pend y1 ++ z ++ flat_map th_pend y2).
        destruct (after_ok [ORetag PkShared prot q t n] m (fun l T => tover lo hi (pends (if prot then n :: pend else pend)) (mem l) T /\
          (forall r, treads r (mem l) (m l) -> treads r (mem l) T) /\ (covers q l = true -> treads n (mem l) T) /\
          incl (map fst (tr_ptrs T)) (n :: map fst (tr_ptrs (m l))) /\
          (forall r, r <> n -> tree_path r (tr_ptrs T) = tree_path r (tr_ptrs (m l))) /\
          (covers q l = false -> T = m l))) as [R0 Q0].
        { intros l. cbn [tree_steps tree_step]. destruct (covers q l) eqn:El.
          - pose proof (Hl p t Hin l (inside_covers _ _ _ Hi El)) as Ea.
            destruct (tover_tag lo hi (pends pend) (mem l) (m l) t n prot (Hu l) (Ho l) Hn (Hnf l) Ea) as (T & E1 & E2 & E3 & E4 & E5 & E6).
            rewrite E1. exists T. split; [reflexivity|]. split; [|split; [exact E3|split; [auto|split; [rewrite E5; apply incl_refl|split; [exact E6|discriminate]]]]].
            eapply tover_weak; [|exact E2]. intros z Hz. unfold pends in *. destruct prot; [|exact Hz].
            destruct Hz as [<-|Hz]; [apply in_or_app; right; left; reflexivity|]. apply in_app_or in Hz. apply in_or_app. destruct Hz as [Hz|Hz]; [left; exact Hz|right; right; exact Hz].
          - exists (m l). split; [reflexivity|]. split; [|split; [auto|split; [discriminate|split; [apply incl_tl, incl_refl|auto]]]].
            eapply tover_weak; [|exact (Ho l)]. intros z Hz. unfold pends. destruct prot; [|exact Hz].
            apply in_app_or in Hz. apply in_or_app. destruct Hz as [Hz|Hz]; [left; exact Hz|right; right; exact Hz]. }
        set (m1 := after _ m) in *.
        assert (Rd : forall r l, tree_access false r (m l) = Some (m l) -> tree_access false r (m1 l) = Some (m1 l)).
        { intros r l Ea. destruct (Q0 l) as (Q1 & Q2 & _). apply (proj2 (tover_reads _ _ _ _ _ r Q1)). apply Q2.
          apply (proj1 (tover_reads _ _ _ _ _ r (Ho l))). exact Ea. }
        assert (Rn : forall l, covers q l = true -> tree_access false n (m1 l) = Some (m1 l)).
        { intros l El. destruct (Q0 l) as (Q1 & _ & Q3 & _). apply (proj2 (tover_reads _ _ _ _ _ n Q1)). exact (Q3 El). }
        assert (Wn : waiting n m1).
        { intros l Hne. destruct (covers q l) eqn:El; [exact (Rn l El)|]. destruct (Q0 l) as (_ & _ & _ & _ & _ & Q6). rewrite (Q6 El) in Hne.
          destruct (tree_path n (tr_ptrs (m l))) as [P|] eqn:EP; [|elim Hne; reflexivity]. elim (Hnf l). apply path_in in EP. apply (in_map fst) in EP. exact EP. }
        assert (Wk : forall r, waiting r m -> waiting r m1).
        { intros r Hr. destruct (Nat.eq_dec r n) as [->|Hne]; [exact Wn|]. intros l Hx. apply Rd, Hr. destruct (Q0 l) as (_ & _ & _ & _ & Q5 & _).
          rewrite <- (Q5 r Hne). exact Hx. }
        exists m1, (mkThread ((q, n) :: live) (if prot then n :: pend else pend) (S n) n').
        split; [exact R0|]. split; [intros r p0 Hr l C; apply Rd, Hr, C|]. split; [exact Wk|]. split; [|split].
        + split; [exact Hc'|]. cbn. split.
          * intros r Hr. assert (G : n = r \/ In r pend) by (destruct prot; [exact Hr|right; exact Hr]).
            destruct G as [<-|G]; [split; [lia|exact Wn]|]. destruct (Hp r G) as [G1 G2]. auto.
          * intros p0 t0 [E|Hx]; [injection E as <- <-; exact Rn|]. intros l C. apply Rd, (Hl _ _ Hx l C).
        + intros l. exact (proj1 (Q0 l)).
        + assert (Ef' : future (y1 ++ mkThread ((q, n) :: live) (if prot then n :: pend else pend) (S n) n' :: y2) = future y1 ++ seq (S n) (n' - S n) ++ future y2)
            by (rewrite future_split; reflexivity).
          unfold tfresh. rewrite Ef'. apply NoDup_remove in Nd. destruct Nd as [Nd Nn]. split; [exact Nd|]. intros z Hz.
          assert (Hz' : In z (future y1 ++ n :: seq (S n) (n' - S n) ++ future y2)).
          { apply in_app_or in Hz. apply in_or_app. destruct Hz as [Hz|Hz]; [left; exact Hz|right; right; exact Hz]. }
          destruct (Hf z Hz') as [Hb Hzf]. split; [exact Hb|]. intros l Hzi. destruct (Q0 l) as (_ & _ & _ & Q4 & _). apply Q4 in Hzi.
          destruct Hzi as [<-|Hzi]; [elim Nn; exact Hz|exact (Hzf l Hzi)].
      - destruct (Hp r (or_introl eq_refl)) as [Hrlo Hrw].
        destruct (after_ok [ORelease r] m (fun l T => tover lo hi (flat_map th_pend y1 ++ pend' ++ flat_map th_pend y2) (mem l) T /\ tr_ptrs T = tr_ptrs (m l))) as [R0 Q0].
        { intros l. cbn [tree_steps tree_step]. destruct (tover_release lo hi (flat_map th_pend y1) r (pend' ++ flat_map th_pend y2) (mem l) (m l) (Hu l) (Ho l) Hrlo (Hrw l))
            as (T & E1 & E2 & E3). rewrite E1. eauto. }
        set (m1 := after _ m) in *.
        assert (Rd : forall r l, tree_access false r (m l) = Some (m l) -> tree_access false r (m1 l) = Some (m1 l)).
        { intros r0 l Ea. destruct (Q0 l) as (Q1 & Q2). apply (proj2 (tover_reads _ _ _ _ _ r0 Q1)).
          apply (proj1 (tover_reads _ _ _ _ _ r0 (Ho l))) in Ea. destruct Ea as (P & EP & Er). exists P. rewrite Q2. auto. }
        assert (Wk : forall r, waiting r m -> waiting r m1).
        { intros r0 Hr0 l Hx. apply Rd, Hr0. destruct (Q0 l) as (_ & Q2). rewrite <- Q2. exact Hx. }
        exists m1, (mkThread live pend' n n').
        split; [exact R0|]. split; [intros r0 p0 Hr l C; apply Rd, Hr, C|]. split; [exact Wk|]. split; [|split].
        + split; [exact Hc'|]. cbn. split; [intros x Hx; destruct (Hp x (or_intror Hx)); auto|]. intros p0 t0 Hx l C. apply Rd, (Hl _ _ Hx l C).
        + intros l. exact (proj1 (Q0 l)).
        + destruct Hf as [Nd Hf]. unfold tfresh. rewrite future_split in *. cbn [th_next th_end] in *. split; [exact Nd|].
          intros z Hz. destruct (Hf z Hz) as [Hb Hzf]. split; [exact Hb|]. intros l. rewrite (proj2 (Q0 l)). apply Hzf. }
    destruct Step as (m1 & y' & Hr1 & Hrd & Hw & Hy' & Ho1 & Hf1).
    destruct (IH (y1 ++ y' :: y2) m1) as (m' & Hr2 & Ho2 & Hrd2).
    + assert (K : forall ts ss, Forall2 (fun os th => tthread_ok lo m th os) ts ss -> Forall2 (fun os th => tthread_ok lo m1 th os) ts ss).
      { intros ts ss. induction 1 as [|os0 th0 ts ss (K1 & K2 & K3) _ IHs]; constructor; [|exact IHs].
        split; [exact K1|]. split; [intros r Hr; destruct (K2 r Hr); auto|]. intros p t Hx. apply Hrd. exact (K3 p t Hx). }
      apply Forall2_app; [apply K; exact Hs1|]. constructor; [exact Hy'|apply K; exact Hs2].
    + rewrite flat_map_app. exact Ho1.
    + exact Hf1.
    + exists m'. split; [exact (grows_app [o] os m m1 m' Hr1 Hr2)|]. split; [exact Ho2|]. intros r p Hr. apply Hrd2, Hrd, Hr.
Qed.
Lemma sharing_tree w a v t n ths n' m lo : sharing w a v t n ths n' -> tree_readable t PlSelf m ->
  n <= n' /\ exists sts, Forall2 (fun os th => tthread_ok lo m th os) ths sts /\ flat_map th_pend sts = [] /\ future sts = seq n (n' - n).
Proof.
  intros H. induction H as [n|n uses th n1 ths n2 Hs _ IH]; intros Ht.
  - split; [lia|]. exists []. rewrite Nat.sub_diag. split; [constructor|]. split; reflexivity.
  - assert (Hc : shared_code [(PlSelf, t)] [] n th n1).
    { apply (session_code _ _ _ _ _ _ _ _ Hs). intros p r [E|[]]. injection E as <- _. discriminate. }
    pose proof (code_order _ _ _ _ _ Hc) as On. destruct (IH Ht) as (On2 & sts & Hf & Hp & Hfu). split; [lia|].
    exists (mkThread [(PlSelf, t)] [] n n1 :: sts). split; [|split; [exact Hp|]].
    + constructor; [|exact Hf]. split; [exact Hc|]. cbn. split; [intros r []|]. intros p r [E|[]]. injection E as <- <-. exact Ht.
    + unfold future in *. cbn [flat_map th_next th_end]. rewrite Hfu. assert (n2 - n = (n1 - n) + (n2 - n1)) as -> by lia.
      rewrite seq_app. assert (n + (n1 - n) = n1) as -> by lia. reflexivity.
Qed.
Lemma code_reads live pend n os n' : shared_code live pend n os n' -> Forall (fun o => writes o = false) os.
Proof. induction 1; constructor; auto. Qed.
Lemma sharing_race_free w a v t n ths n' : sharing w a v t n ths n' -> race_free ths.
Proof.
  intros H. assert (G : forall th, In th ths -> Forall (fun o => writes o = false) th).
  { induction H as [n|n uses th n1 ths n2 Hs _ IH]; intros x Hx; [destruct Hx|]. destruct Hx as [<-|Hx]; [|exact (IH x Hx)].
    apply (code_reads [(PlSelf, t)] [] n th n1). apply (session_code _ _ _ _ _ _ _ _ Hs). intros p r [E|[]]. injection E as <- _. discriminate. }
  intros i j th1 th2 o1 o2 _ E1 E2 H1 H2 [[W|W] _].
  - pose proof (G th1 (nth_error_In _ _ E1)) as F. rewrite Forall_forall in F. rewrite (F o1 H1) in W. discriminate.
  - pose proof (G th2 (nth_error_In _ _ E2)) as F. rewrite Forall_forall in F. rewrite (F o2 H2) in W. discriminate.
Qed.

Lemma c75_shared w a v t n ths n' ops mem :
  tree_readable t PlSelf mem -> unused n mem -> sharing w a v t n ths n' -> interleaved ths ops ->
  exists mem', grows ops mem mem' /\ unused n' mem' /\ (forall r p, tree_readable r p mem -> tree_readable r p mem') /\
    (forall r, tree_usable true r mem -> given_back r n mem mem') /\ race_free ths.
Proof.
  intros Ht Hu Hs Hi. destruct (sharing_tree w a v t n ths n' mem n Hs Ht) as (On & sts & H2 & Hp & Hf).
  destruct (tall_run n n' mem Hu ths ops Hi sts mem H2) as (m' & Hr & Ho & Hrd).
  { rewrite Hp. intros l. apply tover_refl. }
  { split; rewrite Hf; [apply seq_NoDup|]. intros z Hz. apply in_seq in Hz. split; [lia|]. intros l Hin. apply in_map_iff in Hin.
    destruct Hin as ((z' & P) & Ez & Hin). cbn in Ez. subst z'. pose proof (proj1 (proj1 (Hu l) _ _ Hin)). lia. }
  exists m'. split; [exact Hr|]. split; [|split; [exact Hrd|split; [|exact (sharing_race_free _ _ _ _ _ _ _ Hs)]]].
  - intros l. destruct (Ho l) as (ps & xs & A & B & C & D & E & F). destruct (unused_le n n' _ On (Hu l)) as [U1 U2]. rewrite Forall_forall in E, F. split.
    + intros u p Hin. rewrite A in Hin. apply in_app_or in Hin. destruct Hin as [Hin|Hin]; [|exact (U1 u p Hin)]. split; [|exact (E _ Hin)].
      apply (in_map fst) in Hin. cbn in Hin. rewrite <- C in Hin. apply in_map_iff in Hin. destruct Hin as (x & <- & Hx). apply (F x Hx).
    + intros x Hin. rewrite B in Hin. apply in_app_or in Hin. destruct Hin as [Hin|Hin]; [apply (F x Hin)|exact (U2 x Hin)].
  - intros r Hw l. destruct (usable_inv true r mem l Hw) as (P & ow & EP & Ew). destruct (unused_path _ _ _ _ (Hu l) EP) as [Hrn HP].
    destruct (Ho l) as (ps & xs & A & B & C & D & E & F). rewrite Forall_forall in F.
    assert (Hps : Forall (fun x => n <= fst x) ps).
    { apply Forall_forall. intros x Hx. apply (in_map fst) in Hx. rewrite <- C in Hx. apply in_map_iff in Hx. destruct Hx as (y & <- & Hy). apply (F y Hy). }
    destruct (kill_new n P xs HP) as (ys & Ey & Hy).
    { apply Forall_forall. intros x Hx. destruct (F x Hx) as (F1 & _ & F3). split; [apply F1|]. destruct (nd_prot x); [destruct (F3 eq_refl)|reflexivity]. }
    exists (mkTree (tr_ptrs (mem l)) ow), (mkTree (tr_ptrs (m' l)) (ys ++ ow)), ps, ys. cbn [tr_ptrs tr_nodes].
    split; [exact (access_of _ _ _ _ _ EP Ew)|]. split; [|auto].
    apply (access_of _ _ _ P); [rewrite A, (path_skip n); auto|]. rewrite B, all_nodes_app, Ey, Ew. reflexivity.
Qed.
Lemma c75_parts w a u vp fs uses t n mem :
  program w a -> has_proj PMut (w_item w) a = true -> value_of (w_item w) u vp fs -> tree_usable true t mem -> unused n mem ->
  exists ptrs ops n' mem1,
    alias_project w (u_var u) uses "project" true t n = Some (AvProj ptrs, ops, n') /\ length ptrs = length (fields_list fs) /\
    grows ops mem mem1 /\
    forall ths os, Forall2 (fun x th => Forall (through true [x]) th) ptrs ths -> interleaved ths os ->
      race_free ths /\ exists mem2, grows os mem1 mem2 /\ unused n' mem2 /\ given_back t n mem mem2.
Proof.
  intros P Hp V U F. destruct (c72_project w a u vp fs uses t n mem P Hp V U F) as (ptrs & ops & n' & mem1 & E & Em & R & _ & Ru).
  exists ptrs, ops, n', mem1. split; [exact E|]. split.
  { pose proof (f_equal (@length _) Em) as El. rewrite !map_length in El. unfold references in El. rewrite map_length in El. rewrite El.
    apply numbered_length. }
  split; [exact R|]. intros ths os H2 Hi.
  assert (Thr : forall i th o, nth_error ths i = Some th -> In o th -> exists x p c b, nth_error ptrs i = Some x /\ In x ptrs /\
            target (snd x) = Some (p, c) /\ o = OUse b p c).
  { intros i th o Eth Ho. destruct (Forall2_nth _ _ _ _ _ H2 Eth) as (x & Ex & Fx). rewrite Forall_forall in Fx.
    destruct (Fx o Ho) as (x' & p & c & b & [<-|[]] & Tx & _ & ->). exists x, p, c, b. split; [exact Ex|]. split; [exact (nth_error_In _ _ Ex)|auto]. }
  split.
  - intros i j th1 th2 o1 o2 Hij E1 E2 H1 H2' [_ (l & T1 & T2)].
    destruct (Thr i th1 o1 E1 H1) as (x1 & p1 & c1 & b1 & N1 & _ & Tx1 & ->).
    destruct (Thr j th2 o2 E2 H2') as (x2 & p2 & c2 & b2 & N2 & _ & Tx2 & ->).
    rewrite (part_place fs ptrs i x1 p1 c1 Em N1 Tx1) in T1. rewrite (part_place fs ptrs j x2 p2 c2 Em N2 Tx2) in T2.
    cbn in T1, T2. destruct l as [|k]; [discriminate|]. apply Nat.eqb_eq in T1, T2. congruence.
  - apply Ru. apply (interleaved_forall _ _ _ Hi). intros th o Hth Ho. destruct (In_nth_error _ _ Hth) as (i & Ei).
    destruct (Thr i th o Ei Ho) as (x & p & c & b & _ & Hx & Tx & ->). exists x, p, c, b. auto.
Qed.
