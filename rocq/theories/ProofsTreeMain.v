(** Tree Borrows: what callers see. *)
From Coq Require Import String Ascii List Bool Arith Lia.
From Verif Require Import Base Syntax ModelArgs ModelUtils ModelDerive ModelRun ModelAlias ModelTree.
From Verif Require Import SpecArgs SpecDerive SpecExpand SpecRun SpecAlias SpecTree.
From Verif Require Import ProofsArgs ProofsUtils ProofsDerive ProofsExpand ProofsTypes ProofsRun ProofsRunProj ProofsRunReplace.
From Verif Require Import ProofsRunDrop ProofsAlias ProofsAliasRun ProofsAliasCall ProofsAliasMain ProofsTree.
Import ListNotations.
Open Scope string_scope.
Open Scope list_scope.

(** ** Accesses one after the other *)
Lemma node_read_write P x y : node_access true P x = Some y ->
  exists z, node_access false P x = Some z /\ node_access true P z = Some y.
Proof.
  unfold node_access. destruct x as [t st pr]; cbn [nd_tag nd_state nd_prot].
  destruct (elem t P) eqn:E, st as [c| | |], pr; try destruct c; cbn [next_state andb orb option_map]; intros H; try discriminate;
    (eexists; split; [reflexivity|]); cbn [nd_tag nd_state nd_prot]; rewrite E; cbn [next_state andb orb option_map]; exact H.
Qed.
Lemma node_idem w P x y : node_access w P x = Some y -> node_access w P y = Some y.
Proof.
  unfold node_access. destruct x as [t st pr]; cbn [nd_tag nd_state nd_prot].
  destruct (elem t P) eqn:E, st as [c| | |], pr, w; try destruct c; cbn [next_state andb orb option_map]; intros H; try discriminate;
    injection H as <-; cbn [nd_tag nd_state nd_prot]; rewrite E; reflexivity.
Qed.
Lemma all_read_write P l l' : all_nodes (node_access true P) l = Some l' ->
  exists l1, all_nodes (node_access false P) l = Some l1 /\ all_nodes (node_access true P) l1 = Some l'.
Proof.
  intros H. apply all_nodes_rel in H. induction H as [|x y l l' Hx H (l1 & E1 & E2)]; cbn [all_nodes]; [exists []; auto|].
  destruct (node_read_write _ _ _ Hx) as (z & Ez & Ey). exists (z :: l1). rewrite Ez, E1. cbn [all_nodes]. rewrite Ey, E2. auto.
Qed.
Lemma all_idem w P l l' : all_nodes (node_access w P) l = Some l' -> all_nodes (node_access w P) l' = Some l'.
Proof.
  intros H. apply all_nodes_rel in H. induction H as [|x y l l' Hx H IH]; cbn [all_nodes]; [reflexivity|].
  rewrite (node_idem _ _ _ _ Hx), IH. reflexivity.
Qed.
Lemma all_app_inv f l l1 l2 : all_nodes f l = Some (l1 ++ l2) ->
  exists a b, l = a ++ b /\ all_nodes f a = Some l1 /\ all_nodes f b = Some l2.
Proof.
  intros H. apply all_nodes_rel in H. apply Forall2_app_inv_r in H. destruct H as (a & c & H1 & H2 & ->).
  exists a, c. split; [reflexivity|]. split; apply all_nodes_of; assumption.
Qed.
Lemma access_inv w t s s' : tree_access w t s = Some s' ->
  exists P l, tree_path t (tr_ptrs s) = Some P /\ all_nodes (node_access w P) (tr_nodes s) = Some l /\ s' = mkTree (tr_ptrs s) l.
Proof.
  unfold tree_access. destruct (tree_path t (tr_ptrs s)) as [P|]; [|discriminate].
  destruct (all_nodes (node_access w P) (tr_nodes s)) as [l|] eqn:E; [|discriminate]. intros H. injection H as <-. eauto.
Qed.
Lemma access_of w t s P l : tree_path t (tr_ptrs s) = Some P -> all_nodes (node_access w P) (tr_nodes s) = Some l ->
  tree_access w t s = Some (mkTree (tr_ptrs s) l).
Proof. intros E1 E2. unfold tree_access. rewrite E1, E2. reflexivity. Qed.
Lemma usable_inv w t m l : tree_usable w t m -> exists P o, tree_path t (tr_ptrs (m l)) = Some P /\ all_nodes (node_access w P) (tr_nodes (m l)) = Some o.
Proof.
  intros H. destruct (tree_access w t (m l)) as [s|] eqn:E; [|elim (H l E)]. destruct (access_inv _ _ _ _ E) as (P & o & ? & ? & _). eauto.
Qed.
Lemma unused_path n s t P : unused_in n s -> tree_path t (tr_ptrs s) = Some P -> t < n /\ Forall (fun u => u < n) P.
Proof. intros [H _] E. apply (H t P). apply path_in. exact E. Qed.
Lemma unused_le n n' s : n <= n' -> unused_in n s -> unused_in n' s.
Proof.
  intros Hn [A B]. split.
  - intros t p H. destruct (A t p H) as [C D]. split; [lia|]. eapply Forall_impl; [|exact D]. intros u. cbn. lia.
  - intros x Hx. specialize (B x Hx). lia.
Qed.
Lemma nodes_low w P l l' n : all_nodes (node_access w P) l = Some l' -> (forall x, In x l -> nd_tag x < n) -> forall x, In x l' -> nd_tag x < n.
Proof.
  intros E H x Hx. apply (in_map nd_tag) in Hx. rewrite (all_tags _ _ _ _ E) in Hx. apply in_map_iff in Hx.
  destruct Hx as (y & <- & Hy). auto.
Qed.
(** New nodes that are not protected are gone after a write through an old pointer. *)
Lemma kill_new n P l : Forall (fun u => u < n) P -> Forall (fun x => n <= nd_tag x /\ nd_prot x = false) l ->
  exists l', all_nodes (node_access true P) l = Some l' /\ Forall (gone n) l'.
Proof.
  intros HP H. induction H as [|x l (Ht & Hp) H (l' & E & Hl)]; cbn [all_nodes]; [exists []; auto|].
  exists (mkNode (nd_tag x) TDisabled false :: l'). unfold node_access at 1. rewrite (elem_low n _ _ HP Ht), Hp, E.
  split; [destruct (nd_state x); reflexivity|]. constructor; [repeat split; exact Ht|exact Hl].
Qed.
Lemma ext_low n q P l : Forall (fun u => n <= u) q -> (forall x, In x l -> nd_tag x < n) ->
  forall w, all_nodes (node_access w (q ++ P)) l = all_nodes (node_access w P) l.
Proof. intros Hq Hl w. apply all_nodes_ext. intros x Hx. unfold node_access. rewrite (elem_app_low n); auto. Qed.

(** ** Sequences *)
Lemma tree_steps_app l os1 : forall os2 s, tree_steps l (os1 ++ os2) s = match tree_steps l os1 s with Some s' => tree_steps l os2 s' | None => None end.
Proof. induction os1 as [|o os1 IH]; intros os2 s; cbn [app tree_steps]; [reflexivity|]. destruct (tree_step l o s); auto. Qed.
Lemma grows_app os1 os2 m m1 m2 : grows os1 m m1 -> grows os2 m1 m2 -> grows (os1 ++ os2) m m2.
Proof. intros H1 H2 l. rewrite tree_steps_app, (H1 l). apply H2. Qed.
Lemma grows_nil m : grows [] m m.
Proof. intros l. reflexivity. Qed.
Definition after (os : list op) (m : forest) : forest := fun l => match tree_steps l os (m l) with Some s => s | None => m l end.
Lemma after_ok os m (Q : loc -> tree -> Prop) : (forall l, exists s, tree_steps l os (m l) = Some s /\ Q l s) ->
  grows os m (after os m) /\ forall l, Q l (after os m l).
Proof.
  intros H. split; intros l; destruct (H l) as (s & E & Hs); unfold after; rewrite E; [reflexivity|exact Hs].
Qed.

(** ** Calls *)
Definition inv_of (b : bool) (P : list nat) (o0 o : list node) : Prop :=
  if b then exists ow, all_nodes (node_access true P) o0 = Some ow /\ all_nodes (node_access true P) o = Some ow
  else all_nodes (node_access false P) o0 = Some o.
Lemma inv_of_ok b P o0 o : inv_of b P o0 o -> forall w, (w = true -> b = true) ->
  exists o', all_nodes (node_access w P) o = Some o' /\ inv_of b P o0 o'.
Proof.
  unfold inv_of. destruct b; intros H w Hw.
  - destruct H as (ow & E0 & E). destruct w.
    + exists ow. split; [exact E|]. exists ow. split; [exact E0|]. exact (all_idem _ _ _ _ E).
    + destruct (all_read_write _ _ _ E) as (l1 & E1 & E2). exists l1. split; [exact E1|]. exists ow. auto.
  - destruct w; [specialize (Hw eq_refl); discriminate|]. exists o. split; [exact (all_idem _ _ _ _ H)|exact H].
Qed.
Lemma inv_of_start b P o0 ob : all_nodes (node_access b P) o0 = Some ob ->
  exists o1, all_nodes (node_access false P) o0 = Some o1 /\ inv_of b P o0 o1.
Proof.
  intros E. unfold inv_of. destruct b; [|eauto]. destruct (all_read_write _ _ _ E) as (l1 & E1 & E2). exists l1. split; [exact E1|].
  exists ob. auto.
Qed.
Lemma inv_of_write b P o0 ow o : all_nodes (node_access true P) o0 = Some ow -> inv_of b P o0 o -> all_nodes (node_access true P) o = Some ow.
Proof.
  unfold inv_of. intros E H. destruct b.
  - destruct H as (o2 & E1 & E2). congruence.
  - destruct (all_read_write _ _ _ E) as (l1 & E1 & E2). congruence.
Qed.

Definition tsim (b : bool) (n : nat) (P : list nat) (T0 : tree) : nat -> stack -> tree -> Prop :=
  sim b n P (tr_ptrs T0) (inv_of b P (tr_nodes T0)).

Section Call.
  Variables (b : bool) (t n : nat) (T0 : tree) (P : list nat).
  Hypothesis HT0 : unused_in n T0.
  Hypothesis HP : tree_path t (tr_ptrs T0) = Some P.

  Lemma P_new : Forall (fun u => u < n) P.
  Proof. exact (proj2 (unused_path n T0 t P HT0 HP)). Qed.
  Lemma t_new : t < n.
  Proof. exact (proj1 (unused_path n T0 t P HT0 HP)). Qed.

  Lemma tsim_uses k s l os : Forall (fun o => exists w p c, o = OUse w p c /\ (covers p l = true -> at_top w c s)) os ->
    forall T, n <= k -> tsim b n P T0 k s T -> exists T', tree_steps l os T = Some T' /\ tsim b n P T0 k s T'.
  Proof.
    intros H. induction H as [|o os (w & p & c & -> & Ho) H IH]; intros T Hk HT; cbn [tree_steps]; [eauto|].
    assert (E : step l (OUse w p c) s = Some s).
    { cbn [step]. destruct (covers p l); [|reflexivity]. apply at_top_access. auto. }
    destruct (sim_step b n P (tr_ptrs T0) (inv_of b P (tr_nodes T0)) P_new (proj1 HT0) (inv_of_ok b P (tr_nodes T0)) l k (OUse w p c) s k s T)
      as (T1 & E1 & H1); auto.
    - split; [reflexivity|]. auto.
    - intros u Eu. discriminate.
    - rewrite E1. apply IH; auto.
  Qed.
  Lemma tsim_unused k s T : n <= k -> tsim b n P T0 k s T -> unused_in k T.
  Proof.
    intros Hk (np & nn & oo & [S1 S2 S3 S4 S5 S6 S7 S8]). split.
    - intros u p Hu. rewrite S1 in Hu. apply in_app_or in Hu. destruct Hu as [Hu|Hu].
      + rewrite Forall_forall in S2. destruct (S2 _ Hu) as [A B]. cbn in A, B. split; [lia|exact B].
      + destruct (proj1 HT0 u p Hu) as [A B]. split; [lia|]. eapply Forall_impl; [|exact B]. intros v. cbn. lia.
    - intros x Hx. rewrite S3 in Hx. apply in_app_or in Hx. destruct Hx as [Hx|Hx].
      + rewrite Forall_forall in S7. destruct (nw_tag _ _ _ _ _ (S7 x Hx)). lia.
      + rewrite Forall_forall in S5. specialize (S5 x Hx). lia.
  Qed.
  Lemma tsim_unprot k s T np nn oo : sim_parts b n P (tr_ptrs T0) (inv_of b P (tr_nodes T0)) k s T np nn oo ->
    Forall (fun e => en_prot e = false) s -> Forall (fun x => n <= nd_tag x /\ nd_prot x = false) nn.
  Proof.
    intros [S1 S2 S3 S4 S5 S6 S7 S8] Hs. apply Forall_forall. intros x Hx. pose proof S7 as S7'. rewrite Forall_forall in S7'.
    destruct (S7' x Hx) as [N1 N2 N3]. split; [lia|]. destruct (nd_prot x) eqn:E; [|reflexivity]. exfalso.
    destruct (N3 eq_refl) as (e & He & Hr & Et). destruct (links_in _ _ _ _ _ _ _ _ S8 He) as (? & ? & _ & L).
    destruct (lk_node _ _ _ _ _ _ _ _ L Hr) as (z & Hz & Ez & Ep & _).
    assert (z = x) by (apply (same_node nn); auto; congruence). subst z. rewrite Forall_forall in Hs. rewrite (Hs e He) in Ep. congruence.
  Qed.
  Lemma tsim_path k s T : n <= k -> tsim b n P T0 k s T -> tree_path t (tr_ptrs T) = Some P.
  Proof.
    intros Hk (np & nn & oo & H). rewrite (sm_ptrs _ _ _ _ _ _ _ _ _ _ _ H), (path_skip n); [exact HP| |exact t_new].
    eapply Forall_impl; [|exact (sm_new_ptrs _ _ _ _ _ _ _ _ _ _ _ H)]. intros x (A & _). cbn. lia.
  Qed.
  Lemma tsim_back k s T ow : n <= k -> tsim b n P T0 k s T -> Forall (fun e => en_prot e = false) s ->
    all_nodes (node_access true P) (tr_nodes T0) = Some ow -> same_write t n T0 T.
  Proof.
    intros Hk HT Hs Ew. pose proof (tsim_path k s T Hk HT) as Ept. destruct HT as (np & nn & oo & H).
    destruct (kill_new n P nn P_new (tsim_unprot k s T np nn oo H Hs)) as (xs & Ex & Hx).
    destruct H as [S1 S2 S3 S4 S5 S6 S7 S8]. pose proof (inv_of_write b P _ ow oo Ew S4) as Eo.
    exists (mkTree (tr_ptrs T0) ow), (mkTree (tr_ptrs T) (xs ++ ow)), np, xs. cbn [tr_ptrs tr_nodes].
    split; [exact (access_of _ _ _ _ _ HP Ew)|]. split.
    { apply (access_of _ _ _ P); [exact Ept|]. rewrite S3, all_nodes_app, Ex, Eo. reflexivity. }
    split; [exact S1|]. split; [eapply Forall_impl; [|exact S2]; intros x (A & _); cbn; lia|]. auto.
  Qed.

  (** A call of a method. *)
  Lemma call_tree l a' m' ob : all_nodes (node_access b P) (tr_nodes T0) = Some ob ->
    go b (mkA (S n) [ORetag (ref_kind b) true PlSelf t n]) a' (inner b n) m' ->
    exists T, tree_steps l (a_ops a' ++ [ORelease n]) T0 = Some T /\ n <= a_next a' /\
      tsim b n P T0 (a_next a') (map (release n) (m' l)) T /\ Forall (fun e => en_prot e = false) (map (release n) (m' l)).
  Proof.
    intros Eb [(os & E & R & L) X N F C]. cbn [a_ops a_next] in *. specialize (C os E l). rewrite E. cbn [app tree_steps tree_step].
    rewrite covers_self. destruct (inv_of_start b P _ _ Eb) as (o1 & E1 & I1).
    set (st := if b then TReserved false else TFrozen).
    assert (tree_retag (ref_kind b) true t n T0 = Some (mkTree ((n, n :: P) :: tr_ptrs T0) (mkNode n st true :: o1))) as ->.
    { unfold tree_retag, st. rewrite HP. destruct b; cbn [ref_kind]; rewrite E1; reflexivity. }
    assert (H0 : tsim b n P T0 (S n) (inner b n l) (mkTree ((n, n :: P) :: tr_ptrs T0) (mkNode n st true :: o1))).
    { unfold inner. apply (sim_push b n P (tr_ptrs T0) (inv_of b P (tr_nodes T0)) P_new n [] (mkTree (tr_ptrs T0) o1) n (kperm b) true st).
      - exists [], [], o1. constructor; cbn [tr_ptrs tr_nodes app map]; auto; try constructor.
        + apply Forall_forall. intros x Hx. exact (nodes_low _ _ _ _ n E1 (proj2 HT0) x Hx).
        + destruct x; discriminate.
        + destruct x; discriminate.
        + destruct x; discriminate.
        + destruct x; discriminate.
        + destruct x; discriminate.
        + destruct x; discriminate.
      - lia.
      - lia.
      - destruct b; discriminate.
      - intros ->. reflexivity.
      - constructor.
      - unfold st. destruct b; cbn; auto. }
    destruct (sim_steps b n P (tr_ptrs T0) (inv_of b P (tr_nodes T0)) P_new (proj1 HT0) (inv_of_ok b P (tr_nodes T0)) l os
                (S n) (inner b n l) (a_next a') (m' l) (mkTree ((n, n :: P) :: tr_ptrs T0) (mkNode n st true :: o1)) C (R l)) as (T1 & ET1 & H1); [lia| |exact H0|].
    { intros u Hu. specialize (L u Hu). lia. }
    rewrite tree_steps_app, ET1. cbn [tree_steps tree_step].
    destruct (sim_release b n P (tr_ptrs T0) (inv_of b P (tr_nodes T0)) P_new (proj1 HT0) (inv_of_ok b P (tr_nodes T0))
                (a_next a') (m' l) T1 n H1 (le_n n)) as (T & -> & HT).
    exists T. split; [reflexivity|]. split; [lia|]. split; [exact HT|].
    destruct (X l) as (x & -> & Hx). rewrite map_app. apply Forall_app. split.
    - apply Forall_map. eapply Forall_impl; [|exact Hx]. intros e (_ & He & _). unfold release. destruct (Nat.eqb _ _); [reflexivity|exact He].
    - unfold inner. cbn [map]. unfold release. cbn [en_tag]. rewrite Nat.eqb_refl. constructor; [reflexivity|constructor].
  Qed.
End Call.

Lemma top_released q c p m n w l : top q c p m -> allows q w = true -> covers p l = true -> at_top w c (map (release n) (m l)).
Proof.
  intros H Hq Hl. destruct (H l Hl) as (pr & r & E). rewrite E. cbn [map]. unfold release at 1. cbn [en_tag en_perm en_prot].
  destruct (Nat.eqb c n); [exists q, false|exists q, pr]; eauto.
Qed.
Lemma refs_top b m nl vs x p c : Forall2 (is_ref b m) nl vs -> In x vs -> target (snd x) = Some (p, c) -> top (kperm b) c p m /\ exists i, p = PlField i.
Proof.
  intros HF Hin Htg. induction HF as [|nf y nl vs (_ & d & Hd & Hy) HF IH]; [destruct Hin|].
  destruct Hin as [->|Hin]; [|apply IH; exact Hin]. rewrite Hy in Htg.
  destruct (pin_b (snd nf)); cbn [target] in Htg; injection Htg as <- <-; eauto.
Qed.
Lemma through_top b m nl vs os l n : Forall2 (is_ref b m) nl vs -> Forall (through b vs) os ->
  Forall (fun o => exists w p c, o = OUse w p c /\ (covers p l = true -> at_top w c (map (release n) (m l)))) os.
Proof.
  intros HF H. eapply Forall_impl; [|exact H]. intros o (x & p & c & w & Hin & Htg & Hw & ->). exists w, p, c. split; [reflexivity|].
  intros Hl. destruct (refs_top _ _ _ _ _ _ _ HF Hin Htg) as [Ht _]. apply (top_released (kperm b) c p); auto.
  destruct b; [destruct w; reflexivity|]. destruct w; [specialize (Hw eq_refl); discriminate|reflexivity].
Qed.

(** ** The methods *)
Record tfine (t n : nat) (ops : list op) (n' : nat) (mem mem' : forest) : Prop := {
  tf_grows : grows ops mem mem';
  tf_next : n <= n';
  tf_unused : unused n' mem';
  tf_back : given_back t n mem mem'
}.
(** Calls through an exclusive pointer. *)
Lemma tfine_call t n a' m' mem : tree_usable true t mem -> unused n mem ->
  go true (mkA (S n) [ORetag PkMut true PlSelf t n]) a' (inner true n) m' ->
  forall os, (forall l, Forall (fun o => exists w p c, o = OUse w p c /\ (covers p l = true -> at_top w c (map (release n) (m' l)))) os) ->
  exists mem1 mem2, tfine t n (a_ops a' ++ [ORelease n]) (a_next a') mem mem1 /\ grows os mem1 mem2 /\
    unused (a_next a') mem2 /\ given_back t n mem mem2 /\
    forall l, exists P, tree_path t (tr_ptrs (mem l)) = Some P /\ tsim true n P (mem l) (a_next a') (map (release n) (m' l)) (mem1 l).
Proof.
  intros Hu Hn G os Ho.
  destruct (after_ok (a_ops a' ++ [ORelease n]) mem (fun l T => n <= a_next a' /\ exists P ow, tree_path t (tr_ptrs (mem l)) = Some P /\
    all_nodes (node_access true P) (tr_nodes (mem l)) = Some ow /\
    tsim true n P (mem l) (a_next a') (map (release n) (m' l)) T /\ Forall (fun e => en_prot e = false) (map (release n) (m' l)))) as [R1 Q1].
  { intros l. destruct (usable_inv true t mem l Hu) as (P & ow & EP & Ew).
    destruct (call_tree true t n (mem l) P (Hn l) EP l a' m' ow Ew G) as (T & ET & Hk & HT & Hpr). exists T. eauto 10. }
  set (mem1 := after _ mem) in *.
  assert (Hk : n <= a_next a') by exact (proj1 (Q1 LRest)).
  destruct (after_ok os mem1 (fun l T => unused_in (a_next a') T /\ same_write t n (mem l) T)) as [R2 Q2].
  { intros l. destruct (Q1 l) as (_ & P & ow & EP & Ew & HT & Hpr).
    destruct (tsim_uses true t n (mem l) P (Hn l) EP (a_next a') _ l os (Ho l) (mem1 l) Hk HT) as (T & ET & HT2). exists T.
    split; [exact ET|]. split; [exact (tsim_unused true n (mem l) P (Hn l) _ _ T Hk HT2)|].
    exact (tsim_back true t n (mem l) P (Hn l) EP _ _ T ow Hk HT2 Hpr Ew). }
  exists mem1, (after os mem1). split.
  - constructor; auto.
    + intros l. destruct (Q1 l) as (_ & P & ow & EP & Ew & HT & Hpr). exact (tsim_unused true n (mem l) P (Hn l) _ _ _ Hk HT).
    + intros l. destruct (Q1 l) as (_ & P & ow & EP & Ew & HT & Hpr). exact (tsim_back true t n (mem l) P (Hn l) EP _ _ _ ow Hk HT Hpr Ew).
  - split; [exact R2|]. split; [intros l; exact (proj1 (Q2 l))|]. split; [intros l; exact (proj2 (Q2 l))|].
    intros l. destruct (Q1 l) as (_ & P & ow & EP & Ew & HT & Hpr). eauto.
Qed.
Lemma c72_project w a u vp fs uses t n mem :
  program w a -> has_proj PMut (w_item w) a = true -> value_of (w_item w) u vp fs -> tree_usable true t mem -> unused n mem ->
  exists ptrs ops n' mem1,
    alias_project w (u_var u) uses "project" true t n = Some (AvProj ptrs, ops, n') /\
    map (fun x => (fst x, forget (snd x))) ptrs = map (fun x => (fst x, Some (snd x))) (references true fs) /\
    grows ops mem mem1 /\ n <= n' /\
    forall os, Forall (through true ptrs) os ->
      exists mem2, grows os mem1 mem2 /\ unused n' mem2 /\ given_back t n mem mem2.
Proof.
  intros Hp Hh Hv Hu Hn.
  destruct (alias_project_go w a PMut u vp fs uses t n ltac:(discriminate) Hp Hh Hv) as (vs & a' & m' & self & E & G & R).
  destruct (tfine_call t n a' m' mem Hu Hn G []) as (mem1 & _ & F1 & _); [constructor|].
  exists vs, (a_ops a' ++ [ORelease n]), (a_next a'), mem1. split; [exact E|]. split; [exact (forget_refs true self fs m' vs R)|].
  split; [exact (tf_grows _ _ _ _ _ _ F1)|]. split; [exact (tf_next _ _ _ _ _ _ F1)|]. intros os Ho.
  destruct (tfine_call t n a' m' mem Hu Hn G os) as (mem3 & mem2 & F3 & R2 & U2 & B2 & _).
  { intros l. eapply through_top; eassumption. }
  exists mem2. split; [|auto]. intros l. pose proof (R2 l) as X. pose proof (tf_grows _ _ _ _ _ _ F1 l) as Y1.
  pose proof (tf_grows _ _ _ _ _ _ F3 l) as Y3. rewrite Y1 in Y3. injection Y3 as ->. exact X.
Qed.

(** Once the caller's pointer is written through, the results are gone. *)
Lemma c72_stale w a u vp fs uses t n mem ptrs ops n' mem1 mem2 mem3 x p c b :
  program w a -> has_proj PMut (w_item w) a = true -> value_of (w_item w) u vp fs -> tree_usable true t mem -> unused n mem ->
  alias_project w (u_var u) uses "project" true t n = Some (AvProj ptrs, ops, n') -> grows ops mem mem1 ->
  grows [OUse true PlSelf t] mem1 mem2 ->
  In x ptrs -> target (snd x) = Some (p, c) -> ~ grows [OUse b p c] mem2 mem3.
Proof.
  intros Hp Hh Hv Hu Hn E R1 R2 Hin Htg R3.
  destruct (alias_project_go w a PMut u vp fs uses t n ltac:(discriminate) Hp Hh Hv) as (vs & a' & m' & self & E2 & G & R).
  change (mname PMut) with "project" in E2. cbn [kbool] in E2. rewrite E in E2. injection E2 as -> -> ->.
  destruct (tfine_call t n a' m' mem Hu Hn G []) as (m1 & _ & F1 & _ & _ & _ & Q); [constructor|].
  destruct (refs_top true m' _ vs x p c R Hin Htg) as [Ht (i & ->)].
  assert (Hl : covers (PlField i) (LField i) = true) by (cbn [covers]; apply Nat.eqb_refl).
  specialize (R2 (LField i)). specialize (R3 (LField i)). cbn [tree_steps tree_step] in R2, R3. rewrite covers_self in R2. rewrite Hl in R3.
  assert (Em : m1 (LField i) = mem1 (LField i)).
  { pose proof (tf_grows _ _ _ _ _ _ F1 (LField i)) as Y. rewrite (R1 (LField i)) in Y. injection Y as Y. auto. }
  destruct (Q (LField i)) as (P & EP & HT). rewrite Em in HT.
  pose proof (tsim_path true t n (mem (LField i)) P (Hn (LField i)) EP _ _ _ (tf_next _ _ _ _ _ _ F1) HT) as EP1.
  destruct (Ht (LField i) Hl) as (pr & r & Er). rewrite Er in HT. cbn [map] in HT.
  destruct HT as (np & nn & oo & HT). pose proof (sm_links _ _ _ _ _ _ _ _ _ _ _ HT [] _ _ eq_refl) as L.
  assert (En : en_tag (release n (mkEntry c (kperm true) pr)) = c) by (apply release_tag).
  destruct (lk_node _ _ _ _ _ _ _ _ L) as (z & Hz & Ez & _); [rewrite release_raw; reflexivity|]. rewrite En in Ez.
  pose proof (lk_path _ _ _ _ _ _ _ _ L) as Epc. rewrite En in Epc. cbn [chain_path] in Epc. rewrite release_raw, En in Epc. cbn [is_raw en_perm kperm] in Epc.
  pose proof (lk_new _ _ _ _ _ _ _ _ L) as Hc. rewrite En in Hc.
  destruct (tree_access true t (mem1 (LField i))) as [s2|] eqn:Ea; [|discriminate]. injection R2 as R2. rewrite <- R2 in R3.
  destruct (access_inv _ _ _ _ Ea) as (P2 & l2 & EP2 & El2 & ->). rewrite EP1 in EP2. injection EP2 as <-.
  unfold tree_access in R3. cbn [tr_ptrs tr_nodes] in R3. rewrite Epc in R3.
  destruct (all_nodes _ l2) as [l3|] eqn:E3; [|discriminate].
  apply all_nodes_rel in El2. destruct (Forall2_in_l _ _ _ z El2) as (y & Hy & Ey).
  { rewrite (sm_nodes _ _ _ _ _ _ _ _ _ _ _ HT). apply in_or_app. left. exact Hz. }
  apply all_nodes_rel in E3. destruct (Forall2_in_l _ _ _ y E3 Hy) as (y2 & _ & Ey2).
  destruct (node_kept _ _ _ _ Ey) as [Et _]. unfold node_access in Ey, Ey2.
  rewrite (elem_low n _ P) in Ey; [|exact (P_new t n _ P (Hn (LField i)) EP)|lia].
  assert (nd_state y = TDisabled) as Ed.
  { destruct (nd_state z), (nd_prot z); cbn [next_state option_map] in Ey; try discriminate; injection Ey as <-; reflexivity. }
  assert (elem (nd_tag y) (c :: chain_path P (map (release n) r)) = true) as Ee by (apply elem_in; left; congruence).
  rewrite Ee, Ed in Ey2. destruct b; discriminate.
Qed.

Lemma c72_project_replace w a u vp fs uses t n mem :
  program w a -> has_proj POwn (w_item w) a = true -> value_of (w_item w) u vp fs -> replaceable fs ->
  tree_usable true t mem -> unused n mem ->
  exists ops n' mem',
    alias_project w (u_var u) uses "project_replace" true t n =
      Some (AvProj (map (fun f => (f_ident f, AvOwned)) (fields_list fs)), ops, n') /\
    grows ops mem mem' /\ n <= n' /\ unused n' mem' /\ given_back t n mem mem'.
Proof.
  intros Hp Hh Hv Hre Hu Hn.
  destruct (alias_replace_go w a u vp fs uses t n Hp Hh Hv Hre) as (vs & a' & self & E & G & R).
  destruct (tfine_call t n a' _ mem Hu Hn G []) as (mem1 & _ & [F1 F2 F3 F4] & _); [constructor|].
  rewrite (owned_names self fs vs R) in E. do 3 eexists. split; [exact E|]. eauto.
Qed.
Lemma c72_drop w a v uses t n mem :
  program w a -> tree_usable true t mem -> unused n mem ->
  exists ops n' mem',
    alias_destroy w v uses t n = Some (AvOwned, ops, n') /\
    grows ops mem mem' /\ n <= n' /\ unused n' mem' /\ given_back t n mem mem'.
Proof.
  intros Hp Hu Hn. unfold alias_destroy. rewrite (program_drop w a Hp). destruct (ar_pinned_drop a).
  - destruct (alias_drop_body w a v uses n [ORetag PkMut true PlSelf t n] (inner true n) Hp (inner_fresh _ n) (inner_top true n))
      as (a' & m' & E & G).
    destruct (tfine_call t n a' m' mem Hu Hn G []) as (mem1 & _ & [F1 F2 F3 F4] & _); [constructor|].
    exists (a_ops a' ++ [ORelease n]), (a_next a'), mem1. split; [|auto].
    unfold alias_method. cbn [drop_method m_params m_body map rev app]. rewrite E. reflexivity.
  - exists [], n, mem. split; [reflexivity|]. split; [apply grows_nil|]. split; [lia|]. split; [exact Hn|].
    intros l. destruct (usable_inv true t mem l Hu) as (P & ow & EP & Ew).
    exists (mkTree (tr_ptrs (mem l)) ow), (mkTree (tr_ptrs (mem l)) ow), [], []. pose proof (access_of _ _ _ _ _ EP Ew). auto 10.
Qed.

(** ** Shared pointers *)
Definition frozen (n : nat) (x : node) : Prop := n <= nd_tag x /\ nd_state x = TFrozen /\ nd_prot x = false.
Definition tadd (n : nat) (s s' : tree) : Prop := exists ps xs,
  tr_ptrs s' = ps ++ tr_ptrs s /\ Forall (fun x => n <= fst x) ps /\ tr_nodes s' = xs ++ tr_nodes s /\ Forall (frozen n) xs.
Definition tadds (n : nat) (m m' : forest) : Prop := forall l, tadd n (m l) (m' l).
Lemma tadds_refl n m : tadds n m m.
Proof. intros l. exists [], []. auto. Qed.
Lemma tadds_trans n n1 m m1 m2 : n <= n1 -> tadds n m m1 -> tadds n1 m1 m2 -> tadds n m m2.
Proof.
  intros Hn H1 H2 l. destruct (H1 l) as (p1 & x1 & A1 & B1 & C1 & D1), (H2 l) as (p2 & x2 & A2 & B2 & C2 & D2).
  exists (p2 ++ p1), (x2 ++ x1). rewrite A2, A1, C2, C1, !app_assoc. split; [reflexivity|]. split; [|split; [reflexivity|]].
  - apply Forall_app. split; [|exact B1]. eapply Forall_impl; [|exact B2]. intros x. cbn. lia.
  - apply Forall_app. split; [|exact D1]. eapply Forall_impl; [|exact D2]. intros x (E & F & G). repeat split; auto. lia.
Qed.
Lemma frozen_read n P xs : Forall (frozen n) xs -> all_nodes (node_access false P) xs = Some xs.
Proof.
  intros H. apply all_nodes_same. intros x Hx. rewrite Forall_forall in H. destruct (H x Hx) as (_ & E & _).
  destruct x as [t st pr]. cbn in E. subst st. unfold node_access. cbn [nd_tag nd_state nd_prot]. destruct (elem t P); reflexivity.
Qed.
Lemma tadds_readable n m m' r p : unused n m -> tadds n m m' -> tree_readable r p m -> tree_readable r p m'.
Proof.
  intros Hn Ha Hr l Hl. destruct (Ha l) as (ps & xs & E1 & H1 & E2 & H2). specialize (Hr l Hl).
  destruct (access_inv _ _ _ _ Hr) as (P & o & EP & Eo & Es). assert (o = tr_nodes (m l)) as -> by (rewrite Es; reflexivity).
  rewrite (access_of false r (m' l) P (tr_nodes (m' l))); [destruct (m' l); reflexivity| |].
  - rewrite E1, (path_skip n); auto. exact (proj1 (unused_path _ _ _ _ (Hn l) EP)).
  - rewrite E2, all_nodes_app, (frozen_read n P xs H2), Eo. reflexivity.
Qed.
Lemma tadds_back t n T0 P ow o1 T : unused_in n T0 -> tree_path t (tr_ptrs T0) = Some P ->
  all_nodes (node_access true P) (tr_nodes T0) = Some ow -> all_nodes (node_access false P) (tr_nodes T0) = Some o1 ->
  tadd n (mkTree (tr_ptrs T0) o1) T -> same_write t n T0 T.
Proof.
  intros Hn EP Ew E1 (ps & xs & A & B & C & D). cbn [tr_ptrs tr_nodes] in *. destruct (unused_path _ _ _ _ Hn EP) as [Ht HP].
  destruct (all_read_write _ _ _ Ew) as (o2 & E2 & E3). rewrite E1 in E2. injection E2 as <-.
  destruct (kill_new n P xs HP) as (ys & Ey & Hy).
  { eapply Forall_impl; [|exact D]. intros x (F & _ & G). auto. }
  exists (mkTree (tr_ptrs T0) ow), (mkTree (tr_ptrs T) (ys ++ ow)), ps, ys. cbn [tr_ptrs tr_nodes].
  split; [exact (access_of _ _ _ _ _ EP Ew)|]. split; [|auto].
  apply (access_of _ _ _ P); [rewrite A, (path_skip n); auto|]. rewrite C, all_nodes_app, Ey, E3. reflexivity.
Qed.

Lemma tsim_frozen k s n P T0 T np nn oo : sim_parts false n P (tr_ptrs T0) (inv_of false P (tr_nodes T0)) k s T np nn oo ->
  Forall (fun e => en_prot e = false) s -> Forall (frozen n) nn.
Proof.
  intros H Hs. pose proof (tsim_unprot false n T0 P k s T np nn oo H Hs) as Hp. pose proof (sm_new _ _ _ _ _ _ _ _ _ _ _ H) as S7.
  apply Forall_forall. intros x Hx. rewrite Forall_forall in Hp, S7. destruct (Hp x Hx) as [A B]. repeat split; auto.
  exact (nw_mode _ _ _ _ _ (S7 x Hx) eq_refl).
Qed.
(** Calls through a shared pointer. *)
Lemma tshared_call t n a' m' mem nl vs : tree_usable false t mem -> unused n mem ->
  go false (mkA (S n) [ORetag PkShared true PlSelf t n]) a' (inner false n) m' -> Forall2 (is_ref false m') nl vs ->
  exists mem1, grows (a_ops a' ++ [ORelease n]) mem mem1 /\ n <= a_next a' /\ unused (a_next a') mem1 /\
    (forall l, exists P o1, tree_path t (tr_ptrs (mem l)) = Some P /\ all_nodes (node_access false P) (tr_nodes (mem l)) = Some o1 /\
       tadd n (mkTree (tr_ptrs (mem l)) o1) (mem1 l)) /\
    (forall x p c, In x vs -> target (snd x) = Some (p, c) -> tree_readable c p mem1).
Proof.
  intros Hu Hn G R.
  destruct (after_ok (a_ops a' ++ [ORelease n]) mem (fun l T => n <= a_next a' /\ exists P o1, tree_path t (tr_ptrs (mem l)) = Some P /\
    all_nodes (node_access false P) (tr_nodes (mem l)) = Some o1 /\
    tsim false n P (mem l) (a_next a') (map (release n) (m' l)) T /\ Forall (fun e => en_prot e = false) (map (release n) (m' l)))) as [R1 Q1].
  { intros l. destruct (usable_inv false t mem l Hu) as (P & ow & EP & Ew).
    destruct (call_tree false t n (mem l) P (Hn l) EP l a' m' ow Ew G) as (T & ET & Hk & HT & Hpr). exists T. eauto 10. }
  set (mem1 := after _ mem) in *.
  assert (Hk : n <= a_next a') by exact (proj1 (Q1 LRest)).
  exists mem1. split; [exact R1|]. split; [exact Hk|]. split; [|split].
  - intros l. destruct (Q1 l) as (_ & P & o1 & EP & Eo & HT & Hpr). exact (tsim_unused false n (mem l) P (Hn l) _ _ _ Hk HT).
  - intros l. destruct (Q1 l) as (_ & P & o1 & EP & Eo & HT & Hpr). exists P, o1. split; [exact EP|]. split; [exact Eo|].
    destruct HT as (np & nn & oo & H). pose proof (tsim_frozen _ _ _ _ _ _ _ _ _ H Hpr) as Hfz. destruct H as [S1 S2 S3 S4 S5 S6 S7 S8].
    unfold inv_of in S4. rewrite Eo in S4. injection S4 as <-. exists np, nn. cbn [tr_ptrs tr_nodes]. split; [exact S1|]. split; [|auto].
    eapply Forall_impl; [|exact S2]. intros x (A & _). cbn. lia.
  - intros x p c Hin Htg l Hl. destruct (refs_top false m' nl vs x p c R Hin Htg) as [Ht _].
    destruct (Q1 l) as (_ & P & o1 & EP & Eo & HT & Hpr). destruct (top_released SharedRO c p m' n false l Ht eq_refl Hl) as (q & pr & r & Er & _).
    rewrite Er in HT, Hpr. pose proof (sim_top_path _ _ _ _ _ _ _ _ _ HT : tree_path c _ = _) as Epc.
    destruct HT as (np & nn & oo & H). pose proof (tsim_frozen _ _ _ _ _ _ _ _ _ H Hpr) as Hfz. destruct H as [S1 S2 S3 S4 S5 S6 S7 S8].
    destruct (chain_high false n P _ _ _ _ S8) as (q2 & Eq & Hq2). 
    rewrite (access_of false c (mem1 l) _ (tr_nodes (mem1 l)) Epc); [destruct (mem1 l); reflexivity|].
    rewrite Eq, S3, all_nodes_app, (frozen_read n _ nn Hfz), (ext_low n q2 P oo Hq2).
    + unfold inv_of in S4. rewrite (all_idem _ _ _ _ S4). reflexivity.
    + intros y Hy. rewrite Forall_forall in S5. exact (S5 y Hy).
Qed.
Lemma c72_project_ref w a u vp fs uses t n mem :
  program w a -> has_proj PRef (w_item w) a = true -> value_of (w_item w) u vp fs -> tree_usable false t mem -> unused n mem ->
  exists ptrs ops n' mem1,
    alias_project w (u_var u) uses "project_ref" false t n = Some (AvProj ptrs, ops, n') /\
    map (fun x => (fst x, forget (snd x))) ptrs = map (fun x => (fst x, Some (snd x))) (references false fs) /\
    grows ops mem mem1 /\ n <= n' /\ unused n' mem1 /\
    (forall x p c, In x ptrs -> target (snd x) = Some (p, c) -> tree_readable c p mem1) /\
    tree_readable t PlSelf mem1 /\
    (tree_readable t PlSelf mem -> forall r p, tree_readable r p mem -> tree_readable r p mem1) /\
    (tree_usable true t mem -> given_back t n mem mem1).
Proof.
  intros Hp Hh Hv Hu Hn.
  destruct (alias_project_go w a PRef u vp fs uses t n ltac:(discriminate) Hp Hh Hv) as (vs & a' & m' & self & E & G & R).
  destruct (tshared_call t n a' m' mem _ vs Hu Hn G R) as (mem1 & R1 & Hk & U1 & Q & H).
  exists vs, (a_ops a' ++ [ORelease n]), (a_next a'), mem1. split; [exact E|]. split; [exact (forget_refs false self fs m' vs R)|]. split; [exact R1|]. split; [exact Hk|]. split; [exact U1|].
  split; [exact H|]. split; [|split].
  - intros l _. destruct (Q l) as (P & o1 & EP & Eo & ps & xs & A & B & C & D). cbn [tr_ptrs tr_nodes] in *.
    rewrite (access_of false t (mem1 l) P (tr_nodes (mem1 l))); [destruct (mem1 l); reflexivity| |].
    + rewrite A, (path_skip n); auto. exact (proj1 (unused_path _ _ _ _ (Hn l) EP)).
    + rewrite C, all_nodes_app, (frozen_read n P xs D), (all_idem _ _ _ _ Eo). reflexivity.
  - intros Hrt r p Hr. apply (tadds_readable n mem); auto. intros l. destruct (Q l) as (P & o1 & EP & Eo & H1).
    specialize (Hrt l (covers_self l)). rewrite (access_of _ _ _ _ _ EP Eo) in Hrt. injection Hrt as Hrt. rewrite Hrt in H1. exact H1.
  - intros Hw l. destruct (Q l) as (P & o1 & EP & Eo & H1). destruct (usable_inv true t mem l Hw) as (P2 & ow & EP2 & Ew).
    rewrite EP in EP2. injection EP2 as <-. exact (tadds_back t n (mem l) P ow o1 (mem1 l) (Hn l) EP Ew Eo H1).
Qed.
