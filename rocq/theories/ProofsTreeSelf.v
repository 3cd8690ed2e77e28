(** Pointers from a pinned field to itself, under the rules of Tree Borrows. *)
From Coq Require Import String Ascii List Bool Arith Lia.
From Verif Require Import Base Syntax ModelArgs ModelUtils ModelDerive ModelRun ModelAlias ModelTree.
From Verif Require Import SpecArgs SpecDerive SpecExpand SpecRun SpecAlias SpecSelfRef SpecTree SpecTreeSelf.
From Verif Require Import ProofsRun ProofsAlias ProofsAliasRun ProofsAliasMain ProofsTree ProofsTreeMain.
Import ListNotations.
Open Scope string_scope.
Open Scope list_scope.

(** ** One tree *)
Definition calmed (n : nat) (T : tree) : Prop := forall x, In x (tr_nodes T) -> n <= nd_tag x -> nd_prot x = false.
(** All of [ts] have the ancestors [P], and a write is possible. *)
Definition theld_at (P : list nat) (ts : list nat) (T : tree) : Prop :=
  (forall x, In x ts -> tree_path x (tr_ptrs T) = Some P) /\ exists o, all_nodes (node_access true P) (tr_nodes T) = Some o.
Definition theld (ts : list nat) (T : tree) : Prop := exists P, theld_at P ts T.
(** [c] was made from them, by way of pointers not older than [n]. *)
Definition tlends (n : nat) (ts : list nat) (c : nat) (T : tree) : Prop := exists P q,
  theld_at P ts T /\ theld_at (q ++ P) [c] T /\ Forall (fun u => n <= u) q.
Lemma kin_held t ts T : kin (t :: ts) T -> theld (t :: ts) T.
Proof.
  intros (P & H). exists P. split; [intros x Hx; apply (H x Hx)|]. destruct (H t (or_introl eq_refl)) as [E A].
  destruct (tree_access true t T) as [s|] eqn:Ea; [|elim A; reflexivity]. destruct (access_inv _ _ _ _ Ea) as (P2 & o & EP & Eo & _).
  rewrite E in EP. injection EP as <-. exists o. exact Eo.
Qed.
Lemma held_kin ts T : theld ts T -> kin ts T.
Proof.
  intros (P & H & o & Eo). exists P. intros x Hx. split; [apply H; exact Hx|]. rewrite (access_of true x T P o (H x Hx) Eo). discriminate.
Qed.
Lemma theld_incl ts ts' T : theld ts T -> incl ts' ts -> theld ts' T.
Proof. intros (P & H & E) Hi. exists P. split; [intros x Hx; apply H, Hi, Hx|exact E]. Qed.
Lemma node_under w q P x y z : node_access w (q ++ P) x = Some y -> (elem (nd_tag x) q = true -> nd_prot x = false) ->
  node_access true P x = Some z -> exists z', node_access true P y = Some z'.
Proof.
  unfold node_access. assert (E : elem (nd_tag x) (q ++ P) = elem (nd_tag x) q || elem (nd_tag x) P) by apply existsb_app. rewrite E. clear E.
  destruct x as [t st pr]. cbn [nd_tag nd_state nd_prot].
  destruct (elem t q) eqn:Eq, (elem t P) eqn:EP, w, st as [c| | |], pr; cbn; intros H1 H2 H3; try (specialize (H2 eq_refl)); try discriminate;
    try (injection H1 as <-; cbn; rewrite EP; cbn; eauto; fail);
    destruct c; cbn in *; try discriminate; injection H1 as <-; cbn; rewrite EP; cbn; eauto.
Qed.
Lemma all_under w q P l : forall l1 l2, all_nodes (node_access w (q ++ P)) l = Some l1 ->
  (forall x, In x l -> elem (nd_tag x) q = true -> nd_prot x = false) -> all_nodes (node_access true P) l = Some l2 ->
  exists l3, all_nodes (node_access true P) l1 = Some l3.
Proof.
  induction l as [|x l IH]; intros l1 l2 E1 H E2; cbn [all_nodes] in E1, E2.
  - injection E1 as <-. exists []. reflexivity.
  - destruct (node_access w (q ++ P) x) as [y|] eqn:Ey; [|discriminate]. destruct (all_nodes _ l) as [r1|] eqn:Er1 in E1; [|discriminate]. injection E1 as <-.
    destruct (node_access true P x) as [z|] eqn:Ez; [|discriminate]. destruct (all_nodes _ l) as [r2|] eqn:Er2 in E2; [|discriminate].
    destruct (IH r1 r2 Er1 (fun x Hx => H x (or_intror Hx)) Er2) as (l3 & E3).
    destruct (node_under w q P x y z Ey (H x (or_introl eq_refl)) Ez) as (z' & Ez'). exists (z' :: l3). cbn [all_nodes]. rewrite Ez', E3. reflexivity.
Qed.
Lemma access_calmed w x n T T' : tree_access w x T = Some T' -> calmed n T -> calmed n T'.
Proof.
  intros E H y Hy Hn. destruct (access_inv _ _ _ _ E) as (P & o & _ & Eo & ->). cbn [tr_nodes] in Hy. apply all_nodes_rel in Eo.
  destruct (Forall2_in_r _ _ _ _ Eo Hy) as (z & Hz & Hzy). destruct (node_kept _ _ _ _ Hzy) as [E1 E2]. rewrite E2. apply (H z Hz). lia.
Qed.
Lemma access_unused w x n T T' : tree_access w x T = Some T' -> unused_in n T -> unused_in n T'.
Proof.
  intros E [H1 H2]. destruct (access_inv _ _ _ _ E) as (P & o & _ & Eo & ->). split; [exact H1|]. exact (nodes_low _ _ _ _ n Eo H2).
Qed.
(** A use of [x], whose ancestors are those of [ts] and [q]. *)
Lemma access_at n P q ts x T b : theld_at P ts T -> theld_at (q ++ P) [x] T -> Forall (fun u => n <= u) q -> calmed n T ->
  exists T', tree_access b x T = Some T' /\ theld_at P ts T' /\ theld_at (q ++ P) [x] T' /\ tr_ptrs T' = tr_ptrs T.
Proof.
  intros (H1 & o1 & E1) (H2 & o2 & E2) Hq Hc. specialize (H2 x (or_introl eq_refl)).
  assert (Eb : exists o, all_nodes (node_access b (q ++ P)) (tr_nodes T) = Some o /\ exists o', all_nodes (node_access true (q ++ P)) o = Some o').
  { destruct b; [exists o2; split; [exact E2|exists o2; exact (all_idem _ _ _ _ E2)]|]. destruct (all_read_write _ _ _ E2) as (o & A & B). eauto. }
  destruct Eb as (o & Eo & o' & Eo'). exists (mkTree (tr_ptrs T) o). split; [exact (access_of _ _ _ _ _ H2 Eo)|]. split; [|split; [|reflexivity]].
  - split; [exact H1|]. cbn [tr_nodes]. refine (all_under b q P _ _ _ Eo _ E1). intros y Hy Ey. apply (Hc y Hy). apply elem_in in Ey.
    rewrite Forall_forall in Hq. exact (Hq _ Ey).
  - split; [intros y [<-|[]]; exact H2|exists o'; exact Eo'].
Qed.
Lemma theld_use n ts x T b : theld ts T -> In x ts -> calmed n T -> exists T', tree_access b x T = Some T' /\ theld ts T'.
Proof.
  intros (P & H) Hx Hc. assert (H2 : theld_at ([] ++ P) [x] T).
  { split; [intros y [<-|[]]; exact (proj1 H x Hx)|exact (proj2 H)]. }
  destruct (access_at n P [] ts x T b H H2 (Forall_nil _) Hc) as (T' & E & G & _). exists T'. split; [exact E|]. exists P. exact G.
Qed.
Lemma tlends_held n ts c T : tlends n ts c T -> theld ts T.
Proof. intros (P & q & H & _). exists P. exact H. Qed.
Lemma tlends_use n ts c T b : tlends n ts c T -> calmed n T -> exists T', tree_access b c T = Some T' /\ tlends n ts c T'.
Proof.
  intros (P & q & H1 & H2 & Hq) Hc. destruct (access_at n P q ts c T b H1 H2 Hq Hc) as (T' & E & G1 & G2 & _).
  exists T'. split; [exact E|]. exists P, q. auto.
Qed.
Lemma skip_new new x p (ps : list (nat * list nat)) m P : tree_path x ps = Some P -> x < m -> m <= new -> tree_path x ((new, p) :: ps) = Some P.
Proof. intros E Hx Hm. cbn [tree_path]. assert (Nat.eqb new x = false) as -> by (apply Nat.eqb_neq; lia). exact E. Qed.
Lemma theld_raw n m ts x T new : theld ts T -> In x ts -> calmed n T -> unused_in m T -> m <= new ->
  exists T', tree_retag PkRaw false x new T = Some T' /\ theld (new :: ts) T' /\ calmed n T' /\ unused_in (S new) T'.
Proof.
  intros (P & H & o & Eo) Hx Hc Hu Hm. unfold tree_retag. rewrite (H x Hx). eexists. split; [reflexivity|]. split; [|split].
  - exists P. split; [|exists o; exact Eo]. cbn [tr_ptrs]. intros y [<-|Hy]; [cbn [tree_path]; rewrite Nat.eqb_refl; reflexivity|].
    apply (skip_new new y P _ m); [exact (H y Hy)| |exact Hm]. exact (proj1 (unused_path _ _ _ _ Hu (H y Hy))).
  - exact Hc.
  - destruct (unused_path _ _ _ _ Hu (H x Hx)) as [_ HP]. destruct Hu as [U1 U2]. split; cbn [tr_ptrs tr_nodes].
    + intros u p [E|Hin].
      * injection E as <- <-. split; [lia|]. eapply Forall_impl; [|exact HP]. intros u. cbn. lia.
      * destruct (U1 u p Hin) as [A B]. split; [lia|]. eapply Forall_impl; [|exact B]. intros v. cbn. lia.
    + intros y Hy. specialize (U2 y Hy). lia.
Qed.
(** A reference made from [x]. *)
Lemma tlends_child n m P q ts x T new : theld_at P ts T -> theld_at (q ++ P) [x] T -> Forall (fun u => n <= u) q -> calmed n T ->
  unused_in m T -> m <= new -> n <= new ->
  exists T', tree_retag PkMut false x new T = Some T' /\ tlends n ts new T' /\ calmed n T' /\ unused_in (S new) T'.
Proof.
  intros H1 H2 Hq Hc Hu Hm Hn. destruct (access_at n P q ts x T false H1 H2 Hq Hc) as (T1 & E & (G1 & o1 & F1) & (G2 & o2 & F2) & Ep).
  pose proof (access_calmed _ _ _ _ _ E Hc) as Hc1. pose proof (access_unused _ _ _ _ _ E Hu) as Hu1.
  specialize (G2 x (or_introl eq_refl)). destruct (unused_path _ _ _ _ Hu1 G2) as [Hx HqP].
  destruct (access_inv _ _ _ _ E) as (P2 & o & EP & Eo & ->). cbn [tr_ptrs tr_nodes] in *. rewrite G2 in EP. injection EP as <-.
  unfold tree_retag. rewrite G2, Eo. cbn [option_map]. eexists. split; [reflexivity|]. split; [|split].
  - exists P, (new :: q). split; [|split; [|constructor; assumption]].
    + split; cbn [tr_ptrs tr_nodes].
      * intros y Hy. apply (skip_new new y _ _ m); [exact (G1 y Hy)| |exact Hm]. exact (proj1 (unused_path _ _ _ _ Hu1 (G1 y Hy))).
      * exists (mkNode new TDisabled false :: o1). cbn [all_nodes]. unfold node_access at 1. cbn [nd_tag nd_state nd_prot].
        rewrite (elem_low m new P); [cbn; rewrite F1; reflexivity| |exact Hm]. apply Forall_app in HqP. exact (proj2 HqP).
    + split; cbn [tr_ptrs tr_nodes].
      * intros y [<-|[]]. cbn [tree_path]. rewrite Nat.eqb_refl. reflexivity.
      * exists (mkNode new TActive false :: o2). cbn [all_nodes]. unfold node_access at 1. cbn [nd_tag nd_state nd_prot app elem existsb].
        rewrite Nat.eqb_refl. cbn [orb next_state andb option_map].
        change (new :: q ++ P) with ([new] ++ (q ++ P)). rewrite (ext_low m [new] (q ++ P)); [rewrite F2; reflexivity|constructor; [exact Hm|constructor]|].
        exact (proj2 Hu1).
  - intros y [<-|Hy]; [reflexivity|exact (Hc1 y Hy)].
  - destruct Hu1 as [U1 U2]. split; cbn [tr_ptrs tr_nodes].
    + intros u p [Eu|Hin].
      * injection Eu as <- <-. split; [lia|]. constructor; [lia|]. eapply Forall_impl; [|exact HqP]. intros u. cbn. lia.
      * destruct (U1 u p Hin) as [A B]. split; [lia|]. eapply Forall_impl; [|exact B]. intros v. cbn. lia.
    + intros y [<-|Hy]; [cbn; lia|]. specialize (U2 y Hy). lia.
Qed.
Lemma theld_mut n m ts x T new : theld ts T -> In x ts -> calmed n T -> unused_in m T -> m <= new -> n <= new ->
  exists T', tree_retag PkMut false x new T = Some T' /\ tlends n ts new T' /\ calmed n T' /\ unused_in (S new) T'.
Proof.
  intros (P & H) Hx Hc Hu Hm Hn. apply (tlends_child n m P [] ts x T new H); auto. split; [intros y [<-|[]]; exact (proj1 H x Hx)|exact (proj2 H)].
Qed.
Lemma tlends_mut n m ts x T new : tlends n ts x T -> calmed n T -> unused_in m T -> m <= new -> n <= new ->
  exists T', tree_retag PkMut false x new T = Some T' /\ tlends n ts new T' /\ calmed n T' /\ unused_in (S new) T'.
Proof. intros (P & q & H1 & H2 & Hq) Hc Hu Hm Hn. exact (tlends_child n m P q ts x T new H1 H2 Hq Hc Hu Hm Hn). Qed.
Lemma tlends_incl n ts ts' c T : tlends n ts c T -> incl ts' ts -> tlends n ts' c T.
Proof. intros (P & q & (H1 & E1) & H2 & Hq) Hi. exists P, q. split; [split; [intros x Hx; apply H1, Hi, Hx|exact E1]|auto]. Qed.
Lemma calmed_release n r T : calmed n T -> n <= r -> tree_release r T = Some T.
Proof.
  intros Hc Hr. unfold tree_release. destruct (find_node r T) as [x|] eqn:E; [|reflexivity]. destruct (tree_path r (tr_ptrs T)); [|reflexivity].
  apply find_some in E. destruct E as [Hx Et]. apply Nat.eqb_eq in Et. rewrite (Hc x Hx) by lia. reflexivity.
Qed.
Lemma unused_calmed n T : unused_in n T -> calmed n T.
Proof. intros [_ H] x Hx Hn. specialize (H x Hx). lia. Qed.
