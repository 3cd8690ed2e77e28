(** Tree Borrows: sequences of calls. *)
From Coq Require Import String Ascii List Bool Arith Lia.
From Verif Require Import Base Syntax ModelArgs ModelUtils ModelDerive ModelRun ModelAlias ModelTree.
From Verif Require Import SpecArgs SpecDerive SpecExpand SpecRun SpecAlias SpecTree.
From Verif Require Import ProofsRun ProofsRunProj ProofsRunReplace ProofsAlias ProofsAliasRun ProofsAliasMain ProofsTree ProofsTreeMain.
Import ListNotations.
Open Scope string_scope.
Open Scope list_scope.

(** ** Shared pointers *)
Lemma copy_step n t P s st : unused_in n s -> tree_path t (tr_ptrs s) = Some P ->
  tree_access false t s = Some s -> st = TFrozen ->
  let s' := mkTree ((n, n :: P) :: tr_ptrs s) (mkNode n st false :: tr_nodes s) in
  tree_retag PkShared false t n s = Some s' /\ unused_in (S n) s' /\ tadd n s s' /\ tree_access false n s' = Some s'.
Proof.
  intros Hn EP Ea ->. cbn zeta. destruct (unused_path _ _ _ _ Hn EP) as [Ht HP].
  destruct (access_inv _ _ _ _ Ea) as (P2 & o & EP2 & Eo & Es). rewrite EP in EP2. injection EP2 as <-.
  assert (o = tr_nodes s) as -> by (rewrite Es; reflexivity). split; [|split; [|split]].
  - unfold tree_retag. rewrite EP, Eo. reflexivity.
  - split; cbn [tr_ptrs tr_nodes].
    + intros u p [H|H]; [injection H as <- <-|].
      * split; [lia|]. constructor; [lia|]. eapply Forall_impl; [|exact HP]. intros u. cbn. lia.
      * destruct (proj1 Hn u p H) as [A B]. split; [lia|]. eapply Forall_impl; [|exact B]. intros v. cbn. lia.
    + intros x [<-|Hx]; [cbn; lia|]. pose proof (proj2 Hn x Hx). lia.
  - exists [(n, n :: P)], [mkNode n TFrozen false]. cbn [tr_ptrs tr_nodes app]. split; [reflexivity|]. split; [constructor; [cbn; lia|constructor]|].
    split; [reflexivity|]. constructor; [repeat split; cbn; lia|constructor].
  - apply (access_of false n (mkTree ((n, n :: P) :: tr_ptrs s) (mkNode n TFrozen false :: tr_nodes s)) (n :: P)).
    + cbn [tr_ptrs tree_path]. rewrite Nat.eqb_refl. reflexivity.
    + cbn [tr_nodes all_nodes]. unfold node_access at 1. cbn [nd_tag nd_state nd_prot elem existsb]. rewrite Nat.eqb_refl. cbn [orb next_state option_map].
      change (n :: P) with ([n] ++ P). rewrite (ext_low n [n] P); [rewrite Eo; reflexivity|constructor; [lia|constructor]|exact (proj2 Hn)].
Qed.
Lemma tree_covers q p l : inside q p = true -> covers q l = true -> covers p l = true.
Proof. intros Hi Hq. destruct q, p; cbn in *; try discriminate; try reflexivity. apply Nat.eqb_eq in Hi. subst. exact Hq. Qed.

Lemma shared_session_tree w a uses v live n ops n' mem : program w a -> variant_of_item (w_item w) v ->
  shared_session w a uses v live n ops n' -> unused n mem -> (forall p t, In (p, t) live -> tree_readable t p mem) ->
  exists mem', grows ops mem mem' /\ n <= n' /\ unused n' mem' /\ tadds n mem mem'.
Proof.
  intros Hp Hv Hs. revert mem. induction Hs as [live n|live n p q t rest n' Hin Hq Hs IH|live n p t rest n' Hin Hs IH
                                              |live n t ptrs ops n1 rest n' Hin Hh E Hs IH]; intros mem Hn Hl.
  - exists mem. split; [apply grows_nil|]. split; [lia|]. split; [exact Hn|apply tadds_refl].
  - destruct (IH mem Hn Hl) as (m1 & R1 & N1 & F1 & A1). exists m1. split; [|auto].
    intros l. cbn [tree_steps tree_step]. destruct (covers q l) eqn:Eq; [|exact (R1 l)].
    rewrite (Hl p t Hin l (tree_covers _ _ _ Hq Eq)). exact (R1 l).
  - destruct (after_ok [ORetag PkShared false p t n] mem (fun l s => unused_in (S n) s /\ tadd n (mem l) s /\
      (covers p l = true -> tree_access false n s = Some s))) as [R0 Q0].
    { intros l. cbn [tree_steps tree_step]. destruct (covers p l) eqn:El.
      - pose proof (Hl p t Hin l El) as Ea. destruct (access_inv _ _ _ _ Ea) as (P & o & EP & _).
        destruct (copy_step n t P (mem l) TFrozen (Hn l) EP Ea eq_refl) as (E1 & E2 & E3 & E4). rewrite E1. eauto.
      - exists (mem l). split; [reflexivity|]. split; [exact (unused_le n (S n) _ (le_S _ _ (le_n n)) (Hn l))|].
        split; [exists [], []; auto|discriminate]. }
    set (m0 := after _ mem) in *.
    assert (A0 : tadds n mem m0) by (intros l; exact (proj1 (proj2 (Q0 l)))).
    destruct (IH m0) as (m1 & R1 & N1 & F1 & A1).
    + intros l. exact (proj1 (Q0 l)).
    + intros q r [Hq|Hq]; [|apply (tadds_readable n mem); auto]. injection Hq as <- <-. intros l Hl2. exact (proj2 (proj2 (Q0 l)) Hl2).
    + exists m1. split; [exact (grows_app [ORetag PkShared false p t n] rest mem m0 m1 R0 R1)|]. split; [lia|]. split; [exact F1|].
      exact (tadds_trans n (S n) mem m0 m1 (le_S _ _ (le_n n)) A0 A1).
  - destruct Hv as (u & vp & fs & Hv & Eu). subst v. pose proof (Hl PlSelf t Hin) as Ht.
    assert (Hu : tree_usable false t mem) by (intros l; rewrite (Ht l (covers_self l)); discriminate).
    destruct (alias_project_go w a PRef u vp fs uses t n ltac:(discriminate) Hp Hh Hv) as (vs & a' & m' & self & E2 & G & R).
    change (mname PRef) with "project_ref" in E2. cbn [kbool] in E2, G, R. rewrite E in E2. injection E2 as -> -> ->.
    destruct (tshared_call t n a' m' mem _ vs Hu Hn G R) as (m0 & R0 & Hk & U0 & Q & H).
    assert (A0 : tadds n mem m0).
    { intros l. destruct (Q l) as (P & o1 & EP & Eo & H1). specialize (Ht l (covers_self l)).
      rewrite (access_of _ _ _ _ _ EP Eo) in Ht. injection Ht as Ht. rewrite Ht in H1. exact H1. }
    destruct (IH m0 U0) as (m1 & R1 & N1 & F1 & A1).
    { intros q r Hq. apply in_app_or in Hq. destruct Hq as [Hq|Hq]; [|apply (tadds_readable n mem); auto].
      apply in_flat_map in Hq. destruct Hq as (x & Hx & Hq). destruct (target (snd x)) as [[q' r']|] eqn:Et; [|destruct Hq].
      destruct Hq as [Hq|[]]. injection Hq as -> ->. exact (H x q r Hx Et). }
    exists m1. split; [exact (grows_app _ _ _ _ _ R0 R1)|]. split; [lia|]. split; [exact F1|]. exact (tadds_trans n _ mem m0 m1 Hk A0 A1).
Qed.
Lemma c72_shared_session w a uses v t n ops n' mem : program w a -> variant_of_item (w_item w) v ->
  tree_readable t PlSelf mem -> unused n mem -> shared_session w a uses v [(PlSelf, t)] n ops n' ->
  exists mem', grows ops mem mem' /\ unused n' mem' /\ forall r p, tree_readable r p mem -> tree_readable r p mem'.
Proof.
  intros Hp Hv Ht Hn Hs. destruct (shared_session_tree w a uses v _ n ops n' mem Hp Hv Hs Hn) as (m1 & R1 & _ & F1 & A1).
  { intros q r [Hq|[]]. injection Hq as <- <-. exact Ht. }
  exists m1. split; [exact R1|]. split; [exact F1|]. intros r p. apply (tadds_readable n mem); assumption.
Qed.

(** ** Pointers made from others *)
(** If [d] was made from [t] or a pointer made from it, and so on, then what has been
    done with [d] does not take anything from [t]. *)
Lemma lift t d n n1 T0 M M' Pt q : unused_in n T0 -> unused_in n1 M -> n <= n1 -> tree_path t (tr_ptrs T0) = Some Pt ->
  same_write t n T0 M -> tree_path d (tr_ptrs M) = Some (q ++ Pt) -> Forall (fun u => n <= u) q -> same_write d n1 M M' ->
  same_write t n T0 M' /\ tree_path d (tr_ptrs M') = Some (q ++ Pt).
Proof.
  intros U0 U1 Hn EPt (r1 & r2 & ps & xs & A1 & A2 & A3 & A4 & A5 & A6) EPd Hq (s1 & s2 & ps' & ys & B1 & B2 & B3 & B4 & B5 & B6).
  destruct (unused_path _ _ _ _ U0 EPt) as [Ht HP]. destruct (unused_path _ _ _ _ U1 EPd) as [Hd _].
  destruct (access_inv _ _ _ _ A1) as (P1 & ow & C1 & C2 & ->). rewrite EPt in C1. injection C1 as <-.
  destruct (access_inv _ _ _ _ A2) as (P2 & o2 & D1 & D2 & ->). cbn [tr_ptrs tr_nodes] in *. subst o2.
  assert (P2 = Pt) as ->. { rewrite A3, (path_skip n) in D1; auto. congruence. }
  destruct (access_inv _ _ _ _ B1) as (P3 & rd & C3 & C4 & ->). rewrite EPd in C3. injection C3 as <-.
  destruct (access_inv _ _ _ _ B2) as (P4 & o4 & D3 & D4 & ->). cbn [tr_ptrs tr_nodes] in *. subst o4.
  assert (Epd : tree_path d (tr_ptrs M') = Some (q ++ Pt)) by (rewrite B3, (path_skip n1); auto).
  split; [|exact Epd]. rewrite Epd in D3. injection D3 as <-.
  destruct (all_app_inv _ _ _ _ D2) as (zs & om & EM & Ez & Eom). rewrite EM in C4.
  rewrite all_nodes_app in C4. destruct (all_nodes (node_access true (q ++ Pt)) zs) as [rz|] eqn:Erz; [|discriminate].
  destruct (all_nodes (node_access true (q ++ Pt)) om) as [ro|] eqn:Ero; [|discriminate]. injection C4 as <-.
  assert (Hom : forall x, In x om -> nd_tag x < n).
  { intros x Hx. pose proof (all_tags _ _ _ _ Eom) as Et. apply (in_map nd_tag) in Hx. rewrite <- Et, (all_tags _ _ _ _ C2) in Hx.
    apply in_map_iff in Hx. destruct Hx as (y & <- & Hy). exact (proj2 U0 y Hy). }
  rewrite (ext_low n q Pt om Hq Hom), Eom in Ero. injection Ero as <-.
  destruct (all_app_inv _ _ _ _ D4) as (vs & vm & EM' & Evs & Evm). destruct (all_app_inv _ _ _ _ Evm) as (vz & vo & -> & Evz & Evo).
  assert (Hvo : forall x, In x vo -> nd_tag x < n).
  { intros x Hx. apply (in_map nd_tag) in Hx. rewrite <- (all_tags _ _ _ _ Evo), (all_tags _ _ _ _ C2) in Hx.
    apply in_map_iff in Hx. destruct Hx as (y & <- & Hy). exact (proj2 U0 y Hy). }
  rewrite (ext_low n q Pt vo Hq Hvo) in Evo.
  assert (Hback : forall w P l l' m, all_nodes (node_access w P) l = Some l' -> Forall (fun x => m <= nd_tag x /\ nd_prot x = false) l' ->
    Forall (fun x => m <= nd_tag x /\ nd_prot x = false) l).
  { intros w P l l' m E H. apply all_nodes_rel in E. induction E as [|x y l l' Hx E IH]; [constructor|]. inversion H as [|? ? Hy Hl]; subst.
    constructor; [|auto]. destruct (node_kept _ _ _ _ Hx) as [<- <-]. exact Hy. }
  assert (Hkeep : forall w P l l' m, all_nodes (node_access w P) l = Some l' -> Forall (fun x => m <= nd_tag x /\ nd_prot x = false) l ->
    Forall (fun x => m <= nd_tag x /\ nd_prot x = false) l').
  { intros w P l l' m E H. apply all_nodes_rel in E. induction E as [|x y l l' Hx E IH]; [constructor|]. inversion H as [|? ? Hy Hl]; subst.
    constructor; [|auto]. destruct (node_kept _ _ _ _ Hx) as [-> ->]. exact Hy. }
  destruct (kill_new n Pt (vs ++ vz) HP) as (ks & Ek & Hk).
  { apply Forall_app. split.
    - eapply Hback; [exact Evs|]. eapply Forall_impl; [|exact B6]. intros x (F1 & _ & F3). split; [lia|exact F3].
    - eapply Hback; [exact Evz|]. eapply Hkeep; [exact Erz|]. eapply Hback; [exact Ez|]. eapply Forall_impl; [|exact A6].
      intros x (F1 & _ & F3). auto. }
  exists (mkTree (tr_ptrs T0) ow), (mkTree (tr_ptrs M') (ks ++ ow)), (ps' ++ ps), ks. cbn [tr_ptrs tr_nodes].
  split; [exact A1|]. split; [|split; [rewrite B3, A3, app_assoc; reflexivity|split; [|split; [reflexivity|exact Hk]]]].
  - apply (access_of _ _ _ Pt).
    + rewrite B3, A3, app_assoc, (path_skip n); auto. apply Forall_app. split; [|exact A4]. eapply Forall_impl; [|exact B4]. intros x. cbn. lia.
    + rewrite EM', app_assoc, all_nodes_app, Ek, Evo. reflexivity.
  - apply Forall_app. split; [|exact A4]. eapply Forall_impl; [|exact B4]. intros x. cbn. lia.
Qed.

(** ** Sessions *)
Lemma back_usable t n m m' : given_back t n m m' -> tree_usable true t m'.
Proof. intros H l. destruct (H l) as (r1 & r2 & ps & xs & _ & E & _). rewrite E. discriminate. Qed.
Lemma back_refl t n m : tree_usable true t m -> given_back t n m m.
Proof.
  intros H l. destruct (tree_access true t (m l)) as [s|] eqn:E; [|elim (H l E)]. exists s, s, [], []. auto 10.
Qed.
Lemma back_trans t n n1 m m1 m2 : n <= n1 -> given_back t n m m1 -> given_back t n1 m1 m2 -> given_back t n m m2.
Proof.
  intros Hn H1 H2 l. destruct (H1 l) as (r1 & r2 & ps & xs & A1 & A2 & A3 & A4 & A5 & A6), (H2 l) as (s1 & s2 & ps' & ys & B1 & B2 & B3 & B4 & B5 & B6).
  rewrite A2 in B1. injection B1 as <-. exists r1, s2, (ps' ++ ps), (ys ++ xs). split; [exact A1|]. split; [exact B2|].
  rewrite B3, A3, B5, A5, !app_assoc. split; [reflexivity|]. split; [|split; [reflexivity|]].
  - apply Forall_app. split; [|exact A4]. eapply Forall_impl; [|exact B4]. intros x. cbn. lia.
  - apply Forall_app. split; [|exact A6]. eapply Forall_impl; [|exact B6]. intros x (F1 & F2 & F3). repeat split; auto. lia.
Qed.
Lemma tfine_refl t n mem : tree_usable true t mem -> unused n mem -> tfine t n [] n mem mem.
Proof. intros Hu Hn. constructor; auto; [apply grows_nil|apply back_refl; exact Hu]. Qed.
Lemma tfine_trans t n ops n1 ops2 n2 m m1 m2 : tfine t n ops n1 m m1 -> tfine t n1 ops2 n2 m1 m2 -> tfine t n (ops ++ ops2) n2 m m2.
Proof.
  intros [A1 A2 A3 A4] [B1 B2 B3 B4]. constructor; auto; [exact (grows_app _ _ _ _ _ A1 B1)|lia|exact (back_trans t n n1 m m1 m2 A2 A4 B4)].
Qed.
Lemma tfine_use b p t n mem : tree_usable true t mem -> unused n mem -> exists mem', tfine t n [OUse b p t] n mem mem'.
Proof.
  intros Hu Hn.
  destruct (after_ok [OUse b p t] mem (fun l s => unused_in n s /\ same_write t n (mem l) s)) as [R Q].
  { intros l. cbn [tree_steps tree_step]. destruct (usable_inv true t mem l Hu) as (P & ow & EP & Ew). pose proof (access_of _ _ _ _ _ EP Ew) as Ea.
    destruct (covers p l).
    - assert (exists o, all_nodes (node_access b P) (tr_nodes (mem l)) = Some o /\ all_nodes (node_access true P) o = Some ow) as (o & Eo & Eo2).
      { destruct b; [exists ow; split; [exact Ew|exact (all_idem _ _ _ _ Ew)]|exact (all_read_write _ _ _ Ew)]. }
      rewrite (access_of _ _ _ _ _ EP Eo). eexists. split; [reflexivity|]. split.
      + split; [exact (proj1 (Hn l))|]. cbn [tr_nodes]. exact (nodes_low _ _ _ _ n Eo (proj2 (Hn l))).
      + exists (mkTree (tr_ptrs (mem l)) ow), (mkTree (tr_ptrs (mem l)) ow), [], []. split; [exact Ea|]. split; [|auto].
        exact (access_of true t (mkTree (tr_ptrs (mem l)) o) P ow EP Eo2).
    - exists (mem l). split; [reflexivity|]. split; [exact (Hn l)|]. exact (back_refl t n mem Hu l). }
  exists (after [OUse b p t] mem). constructor; auto; [intros l; exact (proj1 (Q l))|intros l; exact (proj2 (Q l))].
Qed.
(** Lending. *)
Lemma lend_step t n mem : tree_usable true t mem -> unused n mem ->
  exists m1, grows [ORetag PkMut false PlSelf t n] mem m1 /\ unused (S n) m1 /\ tree_usable true n m1 /\ given_back t n mem m1 /\
    forall l, exists P, tree_path t (tr_ptrs (mem l)) = Some P /\ tree_path n (tr_ptrs (m1 l)) = Some ([n] ++ P).
Proof.
  intros Hu Hn.
  destruct (after_ok [ORetag PkMut false PlSelf t n] mem (fun l s => unused_in (S n) s /\ tree_access true n s <> None /\ same_write t n (mem l) s /\
    exists P, tree_path t (tr_ptrs (mem l)) = Some P /\ tree_path n (tr_ptrs s) = Some ([n] ++ P))) as [R Q].
  { intros l. cbn [tree_steps tree_step]. rewrite covers_self. destruct (usable_inv true t mem l Hu) as (P & ow & EP & Ew).
    destruct (all_read_write _ _ _ Ew) as (o & Eo & Eo2). destruct (unused_path _ _ _ _ (Hn l) EP) as [Ht HP].
    unfold tree_retag. rewrite EP, Eo. cbn [option_map]. eexists. split; [reflexivity|]. split; [|split; [|split]].
    - split; cbn [tr_ptrs tr_nodes].
      + intros u p [H|H]; [injection H as <- <-|].
        * split; [lia|]. constructor; [lia|]. eapply Forall_impl; [|exact HP]. intros u. cbn. lia.
        * destruct (proj1 (Hn l) u p H) as [A B]. split; [lia|]. eapply Forall_impl; [|exact B]. intros v. cbn. lia.
      + intros x [<-|Hx]; [cbn; lia|]. pose proof (nodes_low _ _ _ _ n Eo (proj2 (Hn l)) x Hx). lia.
    - unfold tree_access. cbn [tr_ptrs tr_nodes tree_path]. rewrite Nat.eqb_refl. change (n :: P) with ([n] ++ P). cbn [all_nodes].
      rewrite (ext_low n [n] P); [|constructor; [lia|constructor]|exact (nodes_low _ _ _ _ n Eo (proj2 (Hn l)))]. rewrite Eo2.
      unfold node_access. cbn [nd_tag nd_state nd_prot elem existsb app]. rewrite Nat.eqb_refl. cbn. discriminate.
    - exists (mkTree (tr_ptrs (mem l)) ow), (mkTree ((n, n :: P) :: tr_ptrs (mem l)) (mkNode n TDisabled false :: ow)), [(n, n :: P)], [mkNode n TDisabled false].
      cbn [tr_ptrs tr_nodes app]. split; [exact (access_of _ _ _ _ _ EP Ew)|]. split.
      + apply (access_of true t (mkTree ((n, n :: P) :: tr_ptrs (mem l)) (mkNode n (TReserved false) false :: o)) P).
        * cbn [tr_ptrs tree_path]. assert (Nat.eqb n t = false) as -> by (apply Nat.eqb_neq; lia). exact EP.
        * cbn [tr_nodes all_nodes]. rewrite Eo2. unfold node_access. cbn [nd_tag nd_state nd_prot]. rewrite (elem_low n n P HP (le_n n)). reflexivity.
      + split; [reflexivity|]. split; [constructor; [cbn; lia|constructor]|]. split; [reflexivity|]. constructor; [repeat split; cbn; lia|constructor].
    - exists P. split; [reflexivity|]. cbn [tr_ptrs tree_path]. rewrite Nat.eqb_refl. reflexivity. }
  exists (after [ORetag PkMut false PlSelf t n] mem). split; [exact R|].
  split; [intros l; apply (Q l)|]. split; [intros l; apply (Q l)|]. split; intros l; apply (Q l).
Qed.
Lemma tfine_lend t n sub n1 mem m1 m2 : unused n mem -> grows [ORetag PkMut false PlSelf t n] mem m1 -> unused (S n) m1 -> given_back t n mem m1 ->
  (forall l, exists P, tree_path t (tr_ptrs (mem l)) = Some P /\ tree_path n (tr_ptrs (m1 l)) = Some ([n] ++ P)) ->
  tfine n (S n) sub n1 m1 m2 -> tfine t n (ORetag PkMut false PlSelf t n :: sub) n1 mem m2.
Proof.
  intros Hn R U1 B1 HP [A1 A2 A3 A4]. constructor; auto; [exact (grows_app [_] sub mem m1 m2 R A1)|lia|].
  intros l. destruct (HP l) as (P & E1 & E2).
  apply (lift t n n (S n) (mem l) (m1 l) (m2 l) P [n] (Hn l) (U1 l) (le_S _ _ (le_n n)) E1 (B1 l) E2); [constructor; [lia|constructor]|exact (A4 l)].
Qed.
Lemma tfine_share w a uses v t n sub n1 mem : program w a -> variant_of_item (w_item w) v ->
  tree_usable true t mem -> unused n mem -> shared_session w a uses v [(PlSelf, n)] (S n) sub n1 ->
  exists mem', tfine t n (ORetag PkShared false PlSelf t n :: sub) n1 mem mem'.
Proof.
  intros Hp Hv Hu Hn Hs.
  destruct (after_ok [ORetag PkShared false PlSelf t n] mem (fun l s => unused_in (S n) s /\ tree_access false n s = Some s /\
    exists P ow o, tree_path t (tr_ptrs (mem l)) = Some P /\ all_nodes (node_access true P) (tr_nodes (mem l)) = Some ow /\
      all_nodes (node_access false P) (tr_nodes (mem l)) = Some o /\ tadd n (mkTree (tr_ptrs (mem l)) o) s)) as [R0 Q0].
  { intros l. cbn [tree_steps tree_step]. rewrite covers_self. destruct (usable_inv true t mem l Hu) as (P & ow & EP & Ew).
    destruct (all_read_write _ _ _ Ew) as (o & Eo & Eo2).
    assert (Hn' : unused_in n (mkTree (tr_ptrs (mem l)) o)).
    { split; [exact (proj1 (Hn l))|]. exact (nodes_low _ _ _ _ n Eo (proj2 (Hn l))). }
    destruct (copy_step n t P (mkTree (tr_ptrs (mem l)) o) TFrozen Hn' EP) as (E1 & E2 & E3 & E4); [|reflexivity|].
    { exact (access_of false t (mkTree (tr_ptrs (mem l)) o) P o EP (all_idem _ _ _ _ Eo)). }
    cbn [tr_ptrs tr_nodes] in *. eexists. split.
    { unfold tree_retag. rewrite EP, Eo. reflexivity. }
    split; [exact E2|]. split; [exact E4|]. exists P, ow, o. auto. }
  set (m0 := after _ mem) in *.
  destruct (shared_session_tree w a uses v _ _ _ _ m0 Hp Hv Hs) as (m1 & R1 & N1 & F1 & A1).
  - intros l. exact (proj1 (Q0 l)).
  - intros p r [Hq|[]]. injection Hq as <- <-. intros l _. exact (proj1 (proj2 (Q0 l))).
  - exists m1. constructor; [exact (grows_app [_] sub mem m0 m1 R0 R1)|lia|exact F1|].
    intros l. destruct (Q0 l) as (_ & _ & P & ow & o & EP & Ew & Eo & (p1 & x1 & X1 & X2 & X3 & X4)). destruct (A1 l) as (p2 & x2 & Y1 & Y2 & Y3 & Y4).
    apply (tadds_back t n (mem l) P ow o (m1 l) (Hn l) EP Ew Eo). exists (p2 ++ p1), (x2 ++ x1). cbn [tr_ptrs tr_nodes] in *.
    rewrite Y1, X1, Y3, X3, !app_assoc. split; [reflexivity|]. split; [|split; [reflexivity|]].
    + apply Forall_app. split; [|exact X2]. eapply Forall_impl; [|exact Y2]. intros x. cbn. lia.
    + apply Forall_app. split; [|exact X4]. eapply Forall_impl; [|exact Y4]. intros x (F1' & F2 & F3). repeat split; auto. lia.
Qed.

Lemma session_tree w a uses t v n ops v' n' :
  program w a -> (forall fs, In fs (fields_of (w_item w)) -> replaceable fs) -> session w a uses t v n ops v' n' ->
  variant_of_item (w_item w) v -> forall mem, tree_usable true t mem -> unused n mem ->
  variant_of_item (w_item w) v' /\ exists mem', tfine t n ops n' mem mem'.
Proof.
  intros Hp Hre Hs.
  induction Hs as [t v n|t v n b p rest v2 n2 Hs IH|t v n sub v1 n1 rest v2 n2 Hs1 IH1 Hs IH|t v n sub n1 rest v2 n2 Hs1 Hs IH
                  |t v n ptrs ops n' os rest v2 n2 Hh E Ho Hs IH|t v n r ops n' v' rest v2 n2 Hh E Hv' Hs IH
                  |t v n r ops n' rest v2 n2 E Hs IH]; intros Hv mem Hu Hn.
  - split; [exact Hv|]. exists mem. apply tfine_refl; assumption.
  - destruct (tfine_use b p t n mem Hu Hn) as (m1 & S1).
    destruct (IH Hv m1 (back_usable _ _ _ _ (tf_back _ _ _ _ _ _ S1)) (tf_unused _ _ _ _ _ _ S1)) as (V2 & m2 & S2).
    split; [exact V2|]. exists m2. exact (tfine_trans _ _ [OUse b p t] _ _ _ _ _ _ S1 S2).
  - destruct (lend_step t n mem Hu Hn) as (m0 & R0 & U0 & W0 & B0 & P0). destruct (IH1 Hv m0 W0 U0) as (V1 & m1 & S0).
    pose proof (tfine_lend t n sub n1 mem m0 m1 Hn R0 U0 B0 P0 S0) as S1.
    destruct (IH V1 m1 (back_usable _ _ _ _ (tf_back _ _ _ _ _ _ S1)) (tf_unused _ _ _ _ _ _ S1)) as (V2 & m2 & S2).
    split; [exact V2|]. exists m2. exact (tfine_trans _ _ (ORetag PkMut false PlSelf t n :: sub) _ _ _ _ _ _ S1 S2).
  - destruct (tfine_share w a uses v t n sub n1 mem Hp Hv Hu Hn Hs1) as (m1 & S1).
    destruct (IH Hv m1 (back_usable _ _ _ _ (tf_back _ _ _ _ _ _ S1)) (tf_unused _ _ _ _ _ _ S1)) as (V2 & m2 & S2).
    split; [exact V2|]. exists m2. exact (tfine_trans _ _ (ORetag PkShared false PlSelf t n :: sub) _ _ _ _ _ _ S1 S2).
  - pose proof Hv as Hv0. destruct Hv as (u & vp & fs & Hv & Eu). subst v.
    destruct (c72_project w a u vp fs uses t n mem Hp Hh Hv Hu Hn) as (ptrs2 & ops2 & n3 & m0 & E2 & _ & R0 & Hk & H).
    rewrite E in E2. injection E2 as <- <- <-. destruct (H os Ho) as (m1 & R1 & U1 & B1).
    assert (S1 : tfine t n (ops ++ os) n' mem m1) by (constructor; auto; exact (grows_app _ _ _ _ _ R0 R1)).
    destruct (IH Hv0 m1 (back_usable _ _ _ _ B1) U1) as (V2 & m2 & S2).
    split; [exact V2|]. exists m2. rewrite app_assoc. exact (tfine_trans _ _ _ _ _ _ _ _ _ S1 S2).
  - destruct Hv as (u & vp & fs & Hv & Eu). subst v.
    assert (Hfs : In fs (fields_of (w_item w))) by (destruct Hv; cbn [fields_of]; [left; reflexivity|apply in_map; assumption]).
    destruct (c72_project_replace w a u vp fs uses t n mem Hp Hh Hv (Hre fs Hfs) Hu Hn) as (ops2 & n3 & m1 & E2 & R1 & Hk & U1 & B1).
    rewrite E in E2. injection E2 as -> <- <-. assert (S1 : tfine t n ops n' mem m1) by (constructor; auto).
    destruct (IH Hv' m1 (back_usable _ _ _ _ B1) U1) as (V2 & m2 & S2).
    split; [exact V2|]. exists m2. exact (tfine_trans _ _ _ _ _ _ _ _ _ S1 S2).
  - destruct (c72_drop w a v uses t n mem Hp Hu Hn) as (ops2 & n3 & m1 & E2 & R1 & Hk & U1 & B1).
    rewrite E in E2. injection E2 as -> <- <-. assert (S1 : tfine t n ops n' mem m1) by (constructor; auto).
    destruct (IH Hv m1 (back_usable _ _ _ _ B1) U1) as (V2 & m2 & S2).
    split; [exact V2|]. exists m2. exact (tfine_trans _ _ _ _ _ _ _ _ _ S1 S2).
Qed.
Lemma c72_session w a uses t v n ops v' n' mem :
  program w a -> (forall fs, In fs (fields_of (w_item w)) -> replaceable fs) -> variant_of_item (w_item w) v ->
  tree_usable true t mem -> unused n mem -> session w a uses t v n ops v' n' ->
  exists mem', grows ops mem mem' /\ unused n' mem' /\ given_back t n mem mem'.
Proof.
  intros Hp Hre Hv Hu Hn Hs. destruct (session_tree w a uses t v n ops v' n' Hp Hre Hs Hv mem Hu Hn) as (_ & mem' & S1).
  exists mem'. destruct S1. auto.
Qed.

(** ** Fields of fields *)
Lemma grows_same os m m1 m2 l : grows os m m1 -> grows os m m2 -> m1 l = m2 l.
Proof. intros H1 H2. specialize (H1 l). rewrite (H2 l) in H1. injection H1. auto. Qed.
Lemma nested_tree t n mem c n' mem' : tree_usable true t mem -> unused n mem -> tree_within t n mem c n' mem' ->
  n <= n' /\ unused n' mem' /\ tree_usable true c mem' /\
  forall l, exists l0 P q, tree_path t (tr_ptrs (mem l0)) = Some P /\ tree_path c (tr_ptrs (mem' l)) = Some (q ++ P) /\
    Forall (fun u => n <= u) q /\ same_write t n (mem l0) (mem' l).
Proof.
  intros Hu Hn H. induction H as [|c n1 mem1 w a uses v ops v' n2 mem2 H IH Hp Hre Hv Hs R
                                 |c n1 mem1 w a uses v ptrs ops n2 mem2 x k d H IH Hp Hh Hv E R Hx Ed].
  - split; [lia|]. split; [exact Hn|]. split; [exact Hu|]. intros l. destruct (usable_inv true t mem l Hu) as (P & ow & EP & Ew).
    exists l, P, []. split; [exact EP|]. split; [exact EP|]. split; [constructor|]. exact (back_refl t n mem Hu l).
  - destruct IH as (I1 & I2 & I3 & I4). destruct (session_tree w a uses c v n1 ops v' n2 Hp Hre Hs Hv mem1 I3 I2) as (_ & m2 & [F1 F2 F3 F4]).
    assert (Em : forall l, m2 l = mem2 l) by (intros l; exact (grows_same ops mem1 m2 mem2 l F1 R)).
    split; [lia|]. split; [intros l; rewrite <- Em; exact (F3 l)|]. split; [intros l; rewrite <- Em; exact (back_usable _ _ _ _ F4 l)|].
    intros l. destruct (I4 l) as (l0 & P & q & E1 & E2 & E3 & E4). exists l0, P, q. specialize (F4 l). rewrite Em in F4.
    destruct (lift t c n n1 (mem l0) (mem1 l) (mem2 l) P q (Hn l0) (I2 l) I1 E1 E4 E2 E3 F4). auto.
  - destruct IH as (I1 & I2 & I3 & I4). destruct Hv as (u & vp & fs & Hv & Eu). subst v.
    destruct (alias_project_go w a PMut u vp fs uses c n1 ltac:(discriminate) Hp Hh Hv) as (vs & a' & m' & self & E2 & G & Rf).
    change (mname PMut) with "project" in E2. cbn [kbool] in E2, G, Rf. rewrite E in E2. injection E2 as -> -> ->.
    destruct (tfine_call c n1 a' m' mem1 I3 I2 G []) as (m1 & _ & [F1 F2 F3 F4] & _ & _ & _ & Q); [constructor|].
    assert (Em : m1 (LField k) = mem2 (LField k)) by exact (grows_same _ mem1 m1 mem2 _ F1 R).
    destruct (refs_top true m' _ vs x (PlField k) d Rf Hx) as [Ht _]; [rewrite Ed; reflexivity|].
    assert (Hl : covers (PlField k) (LField k) = true) by (cbn [covers]; apply Nat.eqb_refl).
    destruct (Q (LField k)) as (Pc & EPc & HT). rewrite Em in HT.
    destruct (I4 (LField k)) as (l0 & P & q & J1 & J2 & J3 & J4). rewrite J2 in EPc. injection EPc as <-.
    specialize (F4 (LField k)). rewrite Em in F4. specialize (F3 (LField k)). rewrite Em in F3.
    destruct (lift t c n n1 (mem l0) (mem1 (LField k)) (mem2 (LField k)) P q (Hn l0) (I2 _) I1 J1 J4 J2 J3 F4) as [K1 K2].
    destruct (top_released Unique d (PlField k) m' n1 true (LField k) Ht eq_refl Hl) as (qd & pr & r & Er & Hqd). rewrite Er in HT.
    pose proof (sim_top_path _ _ _ _ _ _ _ _ _ HT : tree_path d _ = _) as Epd.
    split; [lia|]. split; [intros l; exact F3|]. split.
    + intros _. unfold tree_access. rewrite Epd.
      destruct (sim_access true n1 (q ++ P) (tr_ptrs (mem1 (LField k))) (inv_of true (q ++ P) (tr_nodes (mem1 (LField k))))
                  (proj2 (unused_path _ _ _ _ (I2 _) J2)) (inv_of_ok true (q ++ P) _) (a_next a') [] (mkEntry d qd pr) r _ true HT (Forall_nil _) Hqd)
        as (l' & -> & _). discriminate.
    + intros _. exists l0, P. destruct HT as (np & nn & oo & HT). pose proof (sm_links _ _ _ _ _ _ _ _ _ _ _ HT) as L.
      destruct (chain_high _ _ _ _ _ _ _ L) as (q2 & Eq & Hq2). exists (q2 ++ q). rewrite <- app_assoc. split; [exact J1|].
      split; [rewrite Epd, Eq; reflexivity|]. split; [|exact K1]. apply Forall_app. split; [|exact J3]. eapply Forall_impl; [|exact Hq2]. intros y. cbn. lia.
Qed.
Lemma c72_nested t n mem c n' mem' : tree_usable true t mem -> unused n mem -> tree_within t n mem c n' mem' ->
  tree_usable true c mem' /\ unused n' mem' /\ forall l, exists l0, same_write t n (mem l0) (mem' l).
Proof.
  intros Hu Hn H. destruct (nested_tree t n mem c n' mem' Hu Hn H) as (_ & H1 & H2 & H3). split; [exact H2|]. split; [exact H1|].
  intros l. destruct (H3 l) as (l0 & _ & _ & _ & _ & _ & H4). eauto.
Qed.
